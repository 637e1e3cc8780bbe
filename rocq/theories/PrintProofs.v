(** Proofs for C125 and C126. *)
From Coq Require Import List NArith ZArith Bool Arith Lia.
From Verif Require Import Py BaseSpec FieldModel BaseProofs JsonModel TypeModel CacheModel CacheProofs ListsProofs PrintModel PrintSpec.
Import ListNotations.
Local Open Scope nat_scope.

(** * Bytes *)
Lemma encode_bytes enc s b : encode_with enc s = Some b <-> Bytes enc s b.
Proof.
  unfold Bytes. revert b. induction s as [|c s IH]; intros b; cbn [encode_with].
  - split; [intros [= <-]; exists []; split; [constructor|auto]|intros (p & F & ->); inversion F; auto].
  - destruct (enc c) as [x|] eqn:E.
    + destruct (encode_with enc s) as [t|] eqn:T.
      * split.
        -- intros [= <-]. destruct (proj1 (IH t) eq_refl) as (p & F & ->). exists (x :: p). split; [constructor; auto|auto].
        -- intros (p & F & ->). inversion F as [|? y ? l Hy Fl]; subst. rewrite E in Hy. injection Hy as <-.
           assert (K : Some t = Some (concat l)) by (apply IH; exists l; auto). injection K as ->. reflexivity.
      * split; [discriminate|]. intros (p & F & ->). inversion F as [|? y ? l Hy Fl]; subst.
        assert (K : None = Some (concat l)) by (apply IH; exists l; auto). discriminate K.
    + split; [discriminate|]. intros (p & F & ->). inversion F as [|? y ? l Hy Fl]; subst. congruence.
Qed.
Lemma encode_none enc s : encode_with enc s = None <-> exists c, In c s /\ enc c = None.
Proof.
  induction s as [|c s IH]; cbn [encode_with].
  - split; [discriminate|intros (c & [] & _)].
  - destruct (enc c) as [x|] eqn:E.
    + destruct (encode_with enc s) as [t|] eqn:T.
      * split; [discriminate|]. intros (d & [<-|D] & N); [congruence|]. assert (K : Some t = None) by (apply IH; eauto). discriminate K.
      * split; auto. intros _. destruct (proj1 IH eq_refl) as (d & D & N). exists d. cbn [In]. auto.
    + split; auto. intros _. exists c. cbn [In]. auto.
Qed.
Lemma encode_app enc s t : encode_with enc (s ++ t) =
  match encode_with enc s, encode_with enc t with Some a, Some b => Some (a ++ b) | _, _ => None end.
Proof.
  induction s as [|c s IH]; cbn [app encode_with].
  - now destruct (encode_with enc t).
  - rewrite IH. destruct (enc c), (encode_with enc s), (encode_with enc t); auto. now rewrite app_assoc.
Qed.

(** * Escapes *)
Lemma digits_zero b s n : (0 < b)%N -> Digits b s n -> Digits b (48%N :: s) n.
Proof.
  intros B. induction 1 as [c d V L|s m c d V IH Vd L].
  - change (48%N :: [c]) with ([48%N] ++ [c]). replace d with (0 * b + d)%N by lia. apply digits_more; auto. apply digits_one; [reflexivity|exact B].
  - change (48%N :: s ++ [c]) with ((48%N :: s) ++ [c]). apply digits_more; auto.
Qed.
Lemma digits_app b h n : Digits b h n -> forall z, (0 < b)%N -> Digits b (repeat 48%N z ++ h) n.
Proof. intros H z B. induction z as [|z IH]; auto. cbn [repeat app]. now apply digits_zero. Qed.
Lemma digits_cons b s n : Digits b s n -> exists c t, s = c :: t.
Proof. destruct 1 as [c d V L|t m c d D V L]; [eauto|]. destruct t; cbn [app]; eauto. Qed.
Lemma digits_low b s n : Digits b s n -> hd_error s <> Some 48%N -> (b ^ N.of_nat (length s - 1) <= n)%N.
Proof.
  induction 1 as [c d V L|s m c d H IH V L]; intros Z.
  - cbn. assert (d <> 0)%N; [|lia]. intros ->. apply Z. cbn [hd_error]. f_equal. unfold digit_value in V.
    destruct ((48 <=? c) && (c <=? 57))%N eqn:A; [injection V; apply andb_true_iff in A as [A B]; rewrite N.leb_le in A, B; lia|].
    destruct ((97 <=? c) && (c <=? 102))%N eqn:A2; [|discriminate]. injection V. apply andb_true_iff in A2 as [A2 B]. rewrite N.leb_le in A2, B. lia.
  - destruct (digits_cons _ _ _ H) as (x & t & ->). cbn [app hd_error] in Z, IH. specialize (IH Z). rewrite app_length. cbn [length] in *.
    replace (S (length t) + 1 - 1) with (S (length t)) by lia. replace (S (length t) - 1) with (length t) in IH by lia.
    rewrite Nat2N.inj_succ, N.pow_succ_r'. rewrite N.mul_comm. apply N.le_trans with (m * b)%N; [now apply N.mul_le_mono_r|lia].
Qed.
Lemma hex_padded_digits width c : 0 < width -> (c < 16 ^ N.of_nat width)%N -> Digits 16 (hex_padded width c) c /\ length (hex_padded width c) = width.
Proof.
  intros W C. unfold hex_padded. cbv zeta.
  assert (B : (1 < 16 <= 16)%N) by lia.
  destruct (format_base_numeral 16 (Z.of_N c) B) as (t & n & D & H & [(_ & E & F)|(F & _)]); [|lia].
  assert (n = c) by lia. subst n. rewrite E. split; [now apply digits_app|].
  rewrite app_length, repeat_length. enough (length t <= width) by (apply Nat.sub_add; auto).
  destruct H as [->|H].
  - destruct (Nat.le_gt_cases (length t) 1); [lia|]. exfalso. 
    assert (X : format_base 16 (Z.of_N 0) = [48%N]) by reflexivity. rewrite E in X. rewrite X in H. cbn in H. lia.
  - assert (L := digits_low _ _ _ D H). destruct (Nat.le_gt_cases (length t) width) as [|G]; auto. exfalso.
    assert (16 ^ N.of_nat width <= 16 ^ N.of_nat (length t - 1))%N by (apply N.pow_le_mono_r; lia). lia.
Qed.
Lemma backslash_escape c : (c < 4294967296)%N -> Escape c (backslash c).
Proof.
  intros C. unfold backslash, Escape. destruct (N.ltb_spec c 256); [|destruct (N.ltb_spec c 65536)].
  - destruct (hex_padded_digits 2 c) as [D L]; [lia|change (16 ^ N.of_nat 2)%N with 256%N; lia|].
    exists 120%N, 2, (hex_padded 2 c). split; [reflexivity|]. split; [exact L|]. split; [exact D|]. left. auto.
  - destruct (hex_padded_digits 4 c) as [D L]; [lia|change (16 ^ N.of_nat 4)%N with 65536%N; lia|].
    exists 117%N, 4, (hex_padded 4 c). split; [reflexivity|]. split; [exact L|]. split; [exact D|]. right. left. auto.
  - destruct (hex_padded_digits 8 c) as [D L]; [lia|change (16 ^ N.of_nat 8)%N with 4294967296%N; lia|].
    exists 85%N, 8, (hex_padded 8 c). split; [reflexivity|]. split; [exact L|]. split; [exact D|]. right. right. auto.
Qed.
(** There is only one such text. *)
Lemma digit_value_inj c d v : digit_value c = Some v -> digit_value d = Some v -> c = d.
Proof.
  unfold digit_value. intros C D.
  destruct ((48 <=? c) && (c <=? 57))%N eqn:A; [|destruct ((97 <=? c) && (c <=? 102))%N eqn:A2; [|discriminate]];
  (destruct ((48 <=? d) && (d <=? 57))%N eqn:B; [|destruct ((97 <=? d) && (d <=? 102))%N eqn:B2; [|discriminate]]);
  repeat match goal with H : andb _ _ = true |- _ => apply andb_true_iff in H as [? ?] end; rewrite ?N.leb_le in *;
  injection C as C; injection D as D; lia.
Qed.
Lemma digits_inj b s n : (0 < b)%N -> Digits b s n -> forall t, Digits b t n -> length s = length t -> s = t.
Proof.
  intros B. induction 1 as [c d V L|s m c d H IH V L]; intros t T E.
  - inversion T as [c' d' V' L' |s' m' c' d' H' V' L']; subst.
    + f_equal. eapply digit_value_inj; eauto.
    + exfalso. destruct (digits_cons _ _ _ H') as (x & y & ->). rewrite app_length in E. cbn in E. lia.
  - destruct (digits_cons _ _ _ H) as (x & y & Es).
    remember (m * b + d)%N as n eqn:En. destruct T as [c' d' V' L' |s' m' c' d' H' V' L'].
    + exfalso. rewrite Es, app_length in E. cbn in E. lia.
    + assert (m = m' /\ d = d') as [-> ->].
      { assert (M : m = m'); [|subst; split; auto; lia].
        assert (m = (m * b + d) / b)%N by (symmetry; rewrite N.div_add_l by lia; rewrite N.div_small by lia; lia).
        assert (m' = (m' * b + d') / b)%N by (symmetry; rewrite N.div_add_l by lia; rewrite N.div_small by lia; lia). congruence. }
      rewrite !app_length in E. cbn in E. f_equal; [apply IH; auto; lia|]. f_equal. eapply digit_value_inj; eauto.
Qed.
Lemma escape_one c e f : Escape c e -> Escape c f -> e = f.
Proof.
  intros (l & w & h & -> & L & D & K) (l' & w' & h' & -> & L' & D' & K').
  assert (l = l' /\ w = w') as [-> E] by lia. do 2 f_equal. apply (digits_inj 16 h c) with (2 := D); [lia|exact D'|]. etransitivity; [exact L|]. rewrite E. symmetry. exact L'.
Qed.
Lemma shown_one enc s t u : Shown enc s t -> Shown enc s u -> t = u.
Proof.
  intros H. revert u. induction H as [|c b s t C H IH|c e s t C E H IH]; intros u U; inversion U; subst; auto; try congruence.
  - f_equal. auto.
  - f_equal; auto. eapply escape_one; eauto.
Qed.
Lemma digits_high b s n : (0 < b)%N -> Digits b s n -> (n < b ^ N.of_nat (length s))%N.
Proof.
  intros B. induction 1 as [c d V L|s m c d H IH V L].
  - cbn [length]. change (N.of_nat 1) with 1%N. now rewrite N.pow_1_r.
  - rewrite app_length. cbn [length]. replace (length s + 1) with (S (length s)) by lia. rewrite Nat2N.inj_succ, N.pow_succ_r'.
    assert (m + 1 <= b ^ N.of_nat (length s))%N by lia. apply N.lt_le_trans with (b * (m + 1))%N; [lia|now apply N.mul_le_mono_l].
Qed.
Lemma escape_backslash c e : Escape c e -> e = backslash c.
Proof.
  intros E. eapply escape_one; eauto. apply backslash_escape. destruct E as (l & w & h & -> & L & D & K).
  assert (H : (c < 16 ^ N.of_nat w)%N) by (rewrite <- L; exact (digits_high 16 h c eq_refl D)).
  destruct K as [(A & _ & ->)|[(A & _ & ->)|(A & _ & ->)]]; [lia|lia|exact H].
Qed.
Lemma replaced_shown fs s : Forall (fun c => c < 1114112)%N s -> Shown fs s (replaced fs s).
Proof.
  unfold replaced. induction 1 as [|c s C H IH]; cbn [flat_map]; [constructor|]. destruct (fs c) as [b|] eqn:E.
  - cbn [app]. econstructor; eauto.
  - constructor; auto. apply backslash_escape. lia.
Qed.
Lemma shown_replaced fs s t : Shown fs s t -> t = replaced fs s.
Proof.
  unfold replaced. induction 1 as [|c b s t C H IH|c e s t C E H IH]; cbn [flat_map]; auto; rewrite C.
  - cbn [app]. now f_equal.
  - f_equal; auto. now apply escape_backslash.
Qed.
Lemma digits_chars b s n c : Digits b s n -> In c s -> digit_value c <> None.
Proof.
  induction 1 as [x d V L|s m x d H IH V L]; intros I.
  - destruct I as [<-|[]]. congruence.
  - apply in_app_or in I as [I|[<-|[]]]; auto. congruence.
Qed.
Lemma escape_chars c e x : Escape c e -> In x e -> x <> 10%N /\ x <> 13%N.
Proof.
  intros (l & w & h & -> & L & D & K) [<-|[<-|I]]; [lia|lia|].
  assert (H := digits_chars _ _ _ _ D I). split; intros ->; now apply H.
Qed.
Lemma shown_break enc s t c : c = 10%N \/ c = 13%N -> Shown enc s t -> In c t -> In c s.
Proof.
  intros C. induction 1 as [|x b s t X H IH|x e s t X E H IH]; intros I; [destruct I| |].
  - destruct I as [->|I]; [now left|right; auto].
  - apply in_app_or in I as [I|I]; [|right; auto]. destruct (escape_chars _ _ _ E I). lia.
Qed.
Lemma has_break_false s : ~ In 10%N s /\ ~ In 13%N s -> has_break s = false.
Proof.
  intros [A B]. unfold has_break. destruct (existsb _ s) eqn:E; auto. exfalso. apply existsb_exists in E as (c & I & E).
  apply orb_true_iff in E as [E|E]; apply N.eqb_eq in E; subst; auto.
Qed.

(** * Calls *)
Definition job : Type := list (bool * str) * (bool * str).
Definition W (p : bool * str) : op := Write (fst p) (snd p).
Definition job_ops (j : job) : list op := map W (fst j) ++ [W (snd j); Flush].
Definition job_text (j : job) : str := concat (map snd (fst j)) ++ snd (snd j).

Lemma then_ok l ws : Forall2 (fun x w => x = (w, false)) l ws -> forall r, then_ (l ++ r) = let '(w, b) := then_ r in (concat ws ++ w, b).
Proof.
  induction 1 as [|x w l ws -> H IH]; intros r; cbn [app then_ concat].
  - now destruct (then_ r).
  - rewrite IH. destruct (then_ r). now rewrite app_assoc.
Qed.
Lemma pieces_ok out pieces : forall b, encode_with out (concat pieces) = Some b -> exists bs, concat bs = b /\
  Forall2 (fun x w => x = (w, false)) (map (write out) pieces) (map (fun p => [Write (has_break (fst p)) (snd p)]) (combine pieces bs)) /\
  length bs = length pieces.
Proof.
  induction pieces as [|p l IH]; intros b H; cbn [concat map] in *.
  - injection H as <-. exists []. cbn. repeat constructor.
  - rewrite encode_app in H. destruct (encode_with out p) as [x|] eqn:P; [|discriminate]. destruct (encode_with out (concat l)) as [y|]; [|discriminate].
    injection H as <-. destruct (IH y eq_refl) as (bs & <- & F & L). exists (x :: bs). cbn [combine map length concat]. split; auto.
    split; [|now f_equal]. constructor; auto. unfold write. now rewrite P.
Qed.
Lemma call_job out fs c t : Prints out fs c t -> exists j, call_ops out fs c = (job_ops j, false) /\ job_text j = t /\
  (Unbroken c -> Forall (fun p => fst p = false) (fst j)).
Proof.
  intros [newline line b n B N|newline line s b n U S B N|pieces b n B N].
  - apply encode_bytes in B, N. exists ([(has_break line, b)], (has_break newline, n)). unfold call_ops, write_line, print, write, job_text.
    rewrite B, N. cbn. rewrite app_nil_r. split; auto. split; auto. intros K. repeat constructor. now apply has_break_false.
  - assert (S' := shown_replaced _ _ _ S). subst s. apply encode_bytes in B, N. apply encode_none in U.
    exists ([(has_break (replaced fs line), b)], (has_break newline, n)). unfold call_ops, write_line, print, write, job_text. rewrite U, B, N. cbn.
    rewrite app_nil_r. split; auto. split; auto. intros [K1 K2]. repeat constructor. apply has_break_false.
    split; intros I; eapply shown_break in I; eauto.
  - apply encode_bytes in B, N. destruct (pieces_ok _ _ _ B) as (bs & <- & F & L).
    exists (map (fun p => (has_break (fst p), snd p)) (combine pieces bs), (true, n)). unfold call_ops, print_record, job_text.
    rewrite (then_ok _ _ F). unfold write at 1. rewrite N. cbn [then_ fst snd].
    split; [|split].
    + unfold job_ops. cbn [fst snd]. rewrite map_map. f_equal. f_equal. clear. induction (combine pieces bs); cbn; auto. now f_equal.
    + f_equal. f_equal. rewrite map_map. cbn [snd]. clear - L. revert bs L. induction pieces as [|p l IH]; intros [|x bs] L; try discriminate L; cbn; auto.
      f_equal. apply IH. now injection L.
    + intros K. apply Forall_forall. intros x X. apply in_map_iff in X as ((p, y) & <- & X). cbn [fst]. apply has_break_false.
      apply in_combine_l in X. destruct K as [K1 K2]. split; intros I; [apply K1|apply K2]; apply in_concat; eauto.
Qed.
Lemma program_jobs out fs (cs : list (call * str)) : Forall (fun x => Prints out fs (fst x) (snd x)) cs ->
  exists js, length js = length cs /\ map job_text js = map snd cs /\
    (forall k, program out fs (map fst (skipn k cs)) = flat_map job_ops (skipn k js)) /\
    Forall2 (fun x j => Unbroken (fst x) -> Forall (fun p => fst p = false) (fst j)) cs js.
Proof.
  induction 1 as [|[c t] cs P H (js & L & T & Q & U)].
  - exists []. cbn. repeat split; auto. now intros [|k].
  - destruct (call_job _ _ _ _ P) as (j & E & X & Y). exists (j :: js). cbn [length map fst snd] in *. split; [now f_equal|]. split; [now f_equal|].
    split; [|constructor; auto]. intros [|k]; [|exact (Q k)]. specialize (Q 0). cbn [skipn] in Q. unfold program in *. cbn [skipn map fst then_ flat_map].
    rewrite E. destruct (then_ (map (call_ops out fs) (map fst cs))). cbn [fst] in *. now rewrite Q.
Qed.

(** * Processes *)
Section Processes.
  Variable size : nat.
  Variable tty : bool.

  Definition good (j : job) : Prop := length (job_text j) <= size /\ (tty = true -> Forall (fun p => fst p = false) (fst j)).
  Definition rest (js : list job) (n : nat) : list op := flat_map job_ops (skipn n js).
  Definition PInv (js : list job) (b : str) (ops : list op) (n : nat) : Prop :=
    n <= length js /\
    (b = [] /\ ops = rest js n \/
     (exists j pre post, nth_error js n = Some j /\ fst j = pre ++ post /\ b = concat (map snd pre) /\
        ops = map W post ++ W (snd j) :: Flush :: rest js (S n)) \/
     (exists j, nth_error js n = Some j /\ b = job_text j /\ ops = Flush :: rest js (S n)) \/
     (exists m, n = S m /\ b = [] /\ ops = Flush :: rest js n)).

  Lemma rest_some js n j : nth_error js n = Some j -> rest js n = job_ops j ++ rest js (S n).
  Proof.
    unfold rest. revert n. induction js as [|x js IH]; intros [|n] H; try discriminate H.
    - cbn in H. injection H as ->. reflexivity.
    - cbn [nth_error] in H. change (skipn (S (S n)) (x :: js)) with (skipn (S n) js). change (skipn (S n) (x :: js)) with (skipn n js). auto.
  Qed.
  Lemma rest_none js n : length js <= n -> rest js n = [].
  Proof. intros H. unfold rest. now rewrite skipn_all2. Qed.
  Lemma pstep js b o ops ws b' n : Forall good js -> PInv js b (o :: ops) n -> act size tty b o ws b' ->
    exists n', PInv js b' ops n' /\
      (n' = n /\ (ws = [] \/ ws = [[]]) \/ n' = S n /\ exists j, nth_error js n = Some j /\ ws = [job_text j]).
  Proof.
    intros G (L & I) A.
    assert (I' : (exists j pre post, nth_error js n = Some j /\ fst j = pre ++ post /\ b = concat (map snd pre) /\
        o :: ops = map W post ++ W (snd j) :: Flush :: rest js (S n)) \/
     (exists j, nth_error js n = Some j /\ b = job_text j /\ o :: ops = Flush :: rest js (S n)) \/
     (exists m, n = S m /\ b = [] /\ o :: ops = Flush :: rest js n)).
    { destruct I as [(-> & E)|I]; auto. left. destruct (nth_error js n) as [j|] eqn:N.
      - exists j, [], (fst j). rewrite (rest_some _ _ _ N) in E. unfold job_ops in E. rewrite <- app_assoc in E. cbn in *. auto.
      - apply nth_error_None in N. rewrite rest_none in E by auto. discriminate. }
    clear I. destruct I' as [(j & pre & post & N & F & -> & E)|[(j & N & -> & E)|(m & -> & -> & E)]].
    - assert (GJ : good j) by (rewrite Forall_forall in G; apply G; eapply nth_error_In; eauto). destruct GJ as [GL GB].
      assert (LT : S n <= length js) by (apply nth_error_Some; congruence).
      destruct post as [|p post]; cbn [map app] in E; injection E as -> ->.
      + rewrite app_nil_r in F. subst pre. change (concat (map snd (fst j)) ++ snd (snd j)) with (job_text j) in *.
        unfold W in A. inversion A as [br t K1 K2 K3|t K1 K2 K3|br t w x K1 K2 K3| |]; subst; clear A;
          change (concat (map snd (fst j)) ++ snd (snd j)) with (job_text j) in *.
        * exists n. split; [|auto]. split; auto. right. right. left. exists j. auto.
        * exists (S n). split; [|right; split; auto; exists j; split; auto]. split; auto. right. right. right. exists n. auto.
        * exfalso. apply (Nat.lt_irrefl size). eapply Nat.lt_le_trans; eauto.
      + assert (LP : length (concat (map snd pre) ++ snd p) <= size).
        { eapply Nat.le_trans; [|exact GL]. unfold job_text. rewrite F, map_app, concat_app. cbn [map concat]. rewrite !app_length. lia. }
        unfold W in A. inversion A as [br t K1 K2 K3|t K1 K2 K3 K4|br t w x K1 K2 K3| |]; subst; clear A.
        * exists n. split; [|auto]. split; auto. right. left. exists j, (pre ++ [p]), post. split; auto. split; [now rewrite <- app_assoc|].
          split; auto. rewrite map_app, concat_app. cbn [map concat]. now rewrite app_nil_r.
        * exfalso. specialize (GB K1). rewrite F in GB. apply Forall_app in GB as [_ GB]. inversion GB. congruence.
        * exfalso. apply (Nat.lt_irrefl size). eapply Nat.lt_le_trans; eauto.
    - injection E as -> ->. assert (GJ : good j) by (rewrite Forall_forall in G; apply G; eapply nth_error_In; eauto). destruct GJ as [GL GB].
      assert (LT : S n <= length js) by (apply nth_error_Some; congruence).
      inversion A as [| | |K1|w K1 K2]; subst; clear A.
      + exists (S n). split; [split; auto|]. right. split; auto. exists j. split; auto.
      + exfalso. apply (Nat.lt_irrefl size). eapply Nat.lt_le_trans; eauto.
    - injection E as -> ->. inversion A as [| | |K1|w K1 K2]; subst; clear A; [|cbn in K1; lia].
      exists (S m). split; [split; auto|]. left. auto.
  Qed.
  Lemma rest_length js n k : n < k -> k <= length js -> length (rest js k) + 2 <= length (rest js n).
  Proof.
    intros H. revert n H. induction k as [|k IH]; intros n H K; [lia|].
    destruct (nth_error js k) as [j|] eqn:N; [|apply nth_error_None in N; lia].
    assert (E := rest_some _ _ _ N). apply (f_equal (@length op)) in E. unfold job_ops in E. rewrite !app_length in E. cbn [length] in E.
    destruct (Nat.eq_dec n k) as [->|D]; [lia|]. specialize (IH n). lia.
  Qed.
  Lemma rest_inj js n k : n <= length js -> k <= length js -> length (rest js n) = length (rest js k) -> n = k.
  Proof.
    intros A B E. destruct (Nat.lt_trichotomy n k) as [H|[H|H]]; auto; exfalso.
    - assert (X := rest_length js n k H B). lia.
    - assert (X := rest_length js k n H A). lia.
  Qed.
  Lemma pinv_rest js b n k : PInv js b (rest js k) n -> k <= length js -> n = k /\ b = [].
  Proof.
    intros (L & [(-> & E)|[(j & pre & post & N & F & -> & E)|[(j & N & -> & E)|(m & -> & -> & E)]]]) K; apply (f_equal (@length op)) in E.
    - split; auto. symmetry. apply (rest_inj js); auto.
    - rewrite app_length, map_length in E. cbn [length] in E.
      assert (LT : S n <= length js) by (apply nth_error_Some; congruence).
      assert (X := rest_some _ _ _ N). apply (f_equal (@length op)) in X. unfold job_ops in X. rewrite !app_length, map_length, F, app_length in X. cbn [length] in X.
      destruct pre as [|p pre].
      + cbn [length] in X.  split; auto. apply (rest_inj js); auto. lia.
      + exfalso. cbn [length] in X. destruct (Nat.le_gt_cases k n) as [H|H].
        * destruct (Nat.eq_dec k n) as [->|D]; [lia|]. assert (Y := rest_length js k n). lia.
        * destruct (Nat.eq_dec k (S n)) as [->|D]; [lia|]. assert (Y := rest_length js (S n) k). lia.
    - exfalso. cbn [length] in E. assert (LT : S n <= length js) by (apply nth_error_Some; congruence).
      destruct (Nat.lt_trichotomy k (S n)) as [H|[H|H]].
      + assert (Y := rest_length js k (S n)). lia.
      + subst k. lia.
      + assert (Y := rest_length js (S n) k). lia.
    - exfalso. cbn [length] in E. destruct (Nat.lt_trichotomy k (S m)) as [H|[H|H]].
      + assert (Y := rest_length js k (S m)). lia.
      + subst k. lia.
      + assert (Y := rest_length js (S m) k). lia.
  Qed.

  Lemma of_process_app i l m : of_process i (l ++ m) = of_process i l ++ of_process i m.
  Proof. unfold of_process. now rewrite filter_app, map_app. Qed.
  Lemma firstn_S {A} (l : list A) n x : nth_error l n = Some x -> firstn (S n) l = firstn n l ++ [x].
  Proof.
    revert n. induction l as [|a l IH]; intros [|n] H; try discriminate H.
    - injection H as ->. reflexivity.
    - cbn [firstn app]. f_equal. now apply IH.
  Qed.
  (** What process p, of which n lines have been written, is about to write *)
  Definition Due (js : list job) (p : process) (n : nat) : Prop :=
    (calls p = [] \/ calls p = [[]]) /\ PInv js (buffer p) (ops p) n \/
    exists j, calls p = [job_text j] /\ nth_error js n = Some j /\ PInv js (buffer p) (ops p) (S n).
  Definition SInv (jss : list (list job)) (st : state) (log : list (nat * str)) : Prop :=
    length (procs st) = length jss /\ written st = concat (map snd log) /\ Forall (fun e => fst e < length jss) log /\
    forall i js p, nth_error jss i = Some js -> nth_error (procs st) i = Some p ->
      exists n, Due js p n /\ of_process i log = map job_text (firstn n js).
  (** One process changes, and perhaps there is one more line of it *)
  Lemma sinv_step jss before after p p' w w' log : SInv jss (State (before ++ p :: after) w) log ->
    (forall js n, nth_error jss (length before) = Some js -> Forall good js -> Due js p n ->
       exists n' t, Due js p' n' /\ w' = w ++ t /\ (n' = n /\ t = [] \/ n' = S n /\ exists j, nth_error js n = Some j /\ t = job_text j)) ->
    Forall (Forall good) jss -> exists log', SInv jss (State (before ++ p' :: after) w') log'.
  Proof.
    intros (L & Wr & R & I) T G. cbn [procs written] in *. subst w.
    assert (X : exists js, nth_error jss (length before) = Some js).
    { destruct (nth_error jss (length before)) as [js|] eqn:N; eauto. apply nth_error_None in N. rewrite <- L, app_length in N. cbn in N. lia. }
    destruct X as (js & J).
    assert (P : nth_error (before ++ p :: after) (length before) = Some p) by (rewrite nth_error_app2, Nat.sub_diag; auto).
    destruct (I _ _ _ J P) as (n & PI & Q).
    assert (GJ : Forall good js) by (rewrite Forall_forall in G; apply G; eapply nth_error_In; eauto).
    destruct (T _ _ J GJ PI) as (n' & t & PI' & -> & K).
    assert (NE : exists new : list (nat * str), concat (map snd new) = t /\ (forall i, i <> length before -> of_process i new = []) /\
      Forall (fun e => fst e < length jss) new /\ map job_text (firstn n' js) = map job_text (firstn n js) ++ of_process (length before) new).
    { destruct K as [[-> ->]|[-> (j & N & ->)]].
      - exists []. cbn. rewrite app_nil_r. auto.
      - exists [(length before, job_text j)]. cbn [map concat snd]. rewrite app_nil_r. split; auto. split; [|split].
        + intros i Hi. unfold of_process. cbn. destruct (Nat.eqb_spec (length before) i); [congruence|auto].
        + repeat constructor. cbn [fst]. apply nth_error_Some. congruence.
        + unfold of_process. cbn [filter fst]. rewrite Nat.eqb_refl. cbn [map snd]. rewrite (firstn_S _ _ _ N), map_app. reflexivity. }
    destruct NE as (new & NW & NI & NR & NF). exists (log ++ new). unfold SInv. cbn [procs written].
    split; [rewrite <- L, !app_length; auto|]. split; [rewrite map_app, concat_app, NW; auto|]. split; [apply Forall_app; auto|].
    intros i js' q J' P'. rewrite of_process_app. destruct (Nat.eq_dec i (length before)) as [->|D].
    + rewrite J in J'. injection J' as <-. rewrite nth_error_app2, Nat.sub_diag in P' by auto. cbn in P'. injection P' as <-.
      exists n'. split; auto. now rewrite Q.
    + rewrite (NI _ D), app_nil_r. apply I with (i := i); auto. rewrite <- P'.
      destruct (Nat.lt_ge_cases i (length before)) as [Lt|Ge]; [rewrite !nth_error_app1; auto|].
      rewrite !nth_error_app2 by auto. destruct (i - length before) as [|x] eqn:Z; [lia|]. reflexivity.
  Qed.
  Lemma sinv jss st : Forall (Forall good) jss -> steps size tty (begin (map (flat_map job_ops) jss)) st -> exists log, SInv jss st log.
  Proof.
    intros G H. remember (begin (map (flat_map job_ops) jss)) as s0 eqn:S0. induction H as [s|s t u H IH T].
    - subst s. exists []. unfold SInv, begin. cbn. rewrite !map_length. repeat split; auto.
      intros i js p J P. rewrite map_map in P. rewrite nth_error_map, J in P. injection P as <-. exists 0. split; [|reflexivity].
      left. split; [auto|]. split; [lia|]. left. auto.
    - destruct (IH S0) as (log & I). clear IH S0. destruct T as [before after b o l ws b' w A|before after b c cs l w].
      + eapply sinv_step; [exact I| |exact G]. intros js n J GJ D. exists n, []. rewrite app_nil_r.
        destruct D as [[_ D]|(j & C & _)]; [|discriminate C]. cbn [buffer ops] in D.
        destruct (pstep _ _ _ _ _ _ _ GJ D A) as (n' & PI & K). split; [|auto].
        destruct K as [[-> K]|[-> (j & N & ->)]]; [left; auto|right; exists j; auto].
      + eapply sinv_step; [exact I| |exact G]. intros js n J GJ D.
        destruct D as [[C D]|(j & C & N & D)]; cbn [calls buffer ops] in *.
        * destruct C as [C|C]; [discriminate C|]. injection C as -> ->. exists n, []. split; [left; auto|auto].
        * injection C as -> ->. exists (S n), (job_text j). split; [left; auto|]. split; auto. right. eauto.
  Qed.
End Processes.

Lemma whole size tty out fs (css : list (list (call * str))) st :
  Forall (Forall (fun x => Prints out fs (fst x) (snd x) /\ length (snd x) <= size /\ (tty = false \/ Unbroken (fst x)))) css ->
  steps size tty (begin (map (fun cs => program out fs (map fst cs)) css)) st ->
  length (procs st) = length css /\
  exists log, written st = concat (map snd log) /\ Forall (fun e => fst e < length css) log /\
    forall i cs p, nth_error css i = Some cs -> nth_error (procs st) i = Some p ->
      exists n, n <= length cs /\ of_process i log = map snd (firstn n cs) /\
        forall k, k <= length cs -> ops p = program out fs (map fst (skipn k cs)) -> calls p = [] -> n = k /\ buffer p = [].
Proof.
  intros G H.
  assert (J : exists jss, map (fun cs => program out fs (map fst cs)) css = map (flat_map job_ops) jss /\ length jss = length css /\
    Forall (Forall (good size tty)) jss /\
    Forall2 (fun (cs : list (call * str)) js => length js = length cs /\ map job_text js = map snd cs /\
      forall k, program out fs (map fst (skipn k cs)) = rest js k) css jss).
  { clear H. induction G as [|cs css C G (jss & E & L & F & R)]; [exists []; cbn; auto|].
    assert (P : Forall (fun x => Prints out fs (fst x) (snd x)) cs) by (eapply Forall_impl; [|exact C]; intros x (X & _); exact X).
    destruct (program_jobs _ _ _ P) as (js & JL & JT & JP & JU). exists (js :: jss). cbn [map length].
    split; [f_equal; auto; exact (JP 0)|]. split; [now f_equal|]. split; [|constructor; auto]. constructor; auto.
    clear - C JT JU. revert JT. induction JU as [|x j cs js U JU IH]; intros JT; constructor.
    - inversion C as [|? ? (_ & CL & CB) C']; subst. cbn [map] in JT. injection JT as JT JT'. split; [now rewrite JT|].
      intros T. destruct CB as [CB|CB]; [congruence|auto].
    - inversion C; subst. apply IH; auto. cbn [map] in JT. now injection JT. }
  destruct J as (jss & E & L & F & R). rewrite E in H. destruct (sinv _ _ _ _ F H) as (log & PL & Wr & Lt & I).
  split; [congruence|]. exists log. split; auto. split; [now rewrite <- L|]. intros i cs p C P.
  assert (X : exists js, nth_error jss i = Some js /\ length js = length cs /\ map job_text js = map snd cs /\
      forall k, program out fs (map fst (skipn k cs)) = rest js k).
  { clear - R C. revert i C. induction R as [|x y css jss XY R IH]; intros [|i] C; try discriminate C; cbn [nth_error] in *; [injection C as ->; eauto|auto]. }
  destruct X as (js & J & JL & JT & JP). destruct (I _ _ _ J P) as (n & D & Q). exists n.
  split; [rewrite <- JL; destruct D as [[_ (D & _)]|(j & _ & N & _)]; [exact D|apply Nat.lt_le_incl, nth_error_Some; congruence]|].
  split; [rewrite Q, <- firstn_map, JT, firstn_map; reflexivity|]. intros k K E0 C0. destruct D as [[_ D]|(j & C1 & _)]; [|congruence].
  rewrite E0, JP in D. apply pinv_rest in D; auto. now rewrite JL.
Qed.

(** * What is written *)
Lemma prints_wrote out fs c t : Prints out fs c t -> exists ops, call_ops out fs c = (ops, false) /\ Wrote ops t.
Proof.
  intros P. destruct (call_job _ _ _ _ P) as (j & E & T & _). exists (job_ops j). split; auto. exists (fst j ++ [snd j]).
  unfold job_ops. rewrite map_app, <- app_assoc. split; [reflexivity|]. rewrite map_app, concat_app. cbn [map concat]. now rewrite app_nil_r.
Qed.
Lemma ascii_escape (enc : char -> option str) c : (forall x, (x < 128)%N -> enc x <> None) -> (c < 1114112)%N -> forall x, In x (backslash c) -> enc x <> None.
Proof.
  intros A C x X. apply A. assert (E : Escape c (backslash c)) by (apply backslash_escape; lia).
  destruct E as (l & w & h & E & _ & D & K). rewrite E in X. destruct X as [<-|[<-|X]]; [lia|lia|].
  assert (V := digits_chars _ _ _ _ D X). unfold digit_value in V.
  destruct ((48 <=? x) && (x <=? 57))%N eqn:Y; [apply andb_true_iff in Y as [_ Y]; apply N.leb_le in Y; lia|].
  destruct ((97 <=? x) && (x <=? 102))%N eqn:Z; [apply andb_true_iff in Z as [_ Z]; apply N.leb_le in Z; lia|]. congruence.
Qed.
Lemma encode_total enc s : (forall c, In c s -> enc c <> None) -> exists b, encode_with enc s = Some b.
Proof.
  intros H. destruct (encode_with enc s) as [b|] eqn:E; eauto. apply encode_none in E as (c & I & N). exfalso. now apply (H c).
Qed.
Lemma escaped_line out fs newline line : (forall c, out c = None <-> fs c = None) -> (forall c, (c < 128)%N -> out c <> None) ->
  (newline = [10%N] \/ newline = [0%N]) -> Forall (fun c => c < 1114112)%N line ->
  exists s b n, Shown fs line s /\ Bytes out s b /\ Bytes out newline n /\ Prints out fs (CLine newline line) (b ++ n).
Proof.
  intros O A NL U. assert (S := replaced_shown fs line U). exists (replaced fs line).
  assert (X : exists b, encode_with out (replaced fs line) = Some b).
  { apply encode_total. intros c C. unfold replaced in C. apply in_flat_map in C as (d & D & C).
    destruct (fs d) eqn:F.
    - destruct C as [<-|[]]. intros N. apply O in N. congruence.
    - eapply ascii_escape; eauto. rewrite Forall_forall in U. now apply U. }
  destruct X as (b & B). exists b.
  assert (Y : exists n, encode_with out newline = Some n) by (apply encode_total; intros c C; apply A; destruct NL as [->| ->]; destruct C as [<-|[]]; lia).
  destruct Y as (n & N). exists n. apply encode_bytes in B, N. split; [auto|]. split; [auto|]. split; [auto|].
  destruct (encode_with out line) as [x|] eqn:E.
  - replace b with x; [apply prints_line; auto; now apply encode_bytes|].
    assert (R : replaced fs line = line).
    { unfold replaced. clear - O E. revert x E. induction line as [|c l IH]; intros x E; cbn [flat_map encode_with] in *; auto.
      destruct (out c) eqn:C; [|discriminate]. destruct (encode_with out l) eqn:L; [|discriminate]. rewrite (IH _ eq_refl).
      destruct (fs c) eqn:F; auto. apply O in F. congruence. }
    rewrite R in B. apply encode_bytes in B. congruence.
  - apply encode_none in E. eapply prints_escaped; eauto.
Qed.

(** * JSON *)
Definition plain_char (c : char) : Prop := (32 <= c < 127)%N.
Lemma hex4_plain n : Forall plain_char (hex4 n).
Proof.
  unfold hex4. cbv zeta. apply Forall_app. split; [apply Forall_forall; intros x X; apply repeat_spec in X; subst; unfold plain_char; lia|].
  assert (B : (1 < 16 <= 16)%N) by lia.
  destruct (format_base_numeral 16 (Z.of_N n) B) as (t & m & D & H & [(_ & E & F)|(F & _)]); [|lia]. rewrite E.
  apply Forall_forall. intros x X. assert (V := digits_chars _ _ _ _ D X). unfold digit_value in V. unfold plain_char.
  destruct ((48 <=? x) && (x <=? 57))%N eqn:Y; [apply andb_true_iff in Y as [Y1 Y2]; apply N.leb_le in Y1, Y2; lia|].
  destruct ((97 <=? x) && (x <=? 102))%N eqn:Z; [apply andb_true_iff in Z as [Z1 Z2]; apply N.leb_le in Z1, Z2; lia|]. congruence.
Qed.
Lemma plain_forallb s : forallb (fun c => (32 <=? c) && (c <? 127))%N s = true -> Forall plain_char s.
Proof.
  intros H. apply Forall_forall. intros c C. rewrite forallb_forall in H. specialize (H c C). apply andb_true_iff in H as [A B].
  apply N.leb_le in A. apply N.ltb_lt in B. unfold plain_char. lia.
Qed.
Ltac plain := apply plain_forallb; reflexivity.
Lemma encode_char_plain c : Forall plain_char (encode_char c).
Proof.
  unfold encode_char. repeat (match goal with |- context [if N.eqb c ?x then _ else _] => destruct (N.eqb c x); [plain|] end).
  destruct ((32 <=? c) && (c <=? 126))%N eqn:E.
  { apply andb_true_iff in E as [A B]. apply N.leb_le in A, B. repeat constructor; lia. }
  destruct (c <? 65536)%N; (apply Forall_app; split; [plain|]); [apply hex4_plain|].
  apply Forall_app. split; [apply hex4_plain|]. apply Forall_app. split; [plain|apply hex4_plain].
Qed.
Lemma encode_string_plain s : Forall plain_char (encode_string s).
Proof.
  unfold encode_string. constructor; [unfold plain_char; lia|]. apply Forall_app. split; [|plain].
  apply Forall_forall. intros c C. apply in_flat_map in C as (d & _ & C). assert (H := encode_char_plain d). rewrite Forall_forall in H. auto.
Qed.
Lemma join_plain sep l : Forall plain_char sep -> Forall (Forall plain_char) l -> Forall plain_char (join_with sep l).
Proof.
  intros S. induction 1 as [|x l X L IH]; [constructor|]. destruct l as [|y l]; cbn [join_with] in *; auto.
  apply Forall_app. split; auto. apply Forall_app. split; auto.
Qed.
Lemma dumps_plain r : Forall plain_char (dumps r).
Proof.
  unfold dumps. apply Forall_app. split; [plain|]. apply Forall_app. split; [|plain]. apply join_plain; [plain|].
  apply Forall_forall. intros x X. apply in_map_iff in X as ([k v] & <- & _). unfold dumps_item.
  apply Forall_app. split; [apply encode_string_plain|]. apply Forall_app. split; [plain|]. cbn [snd]. unfold dumps_value.
  destruct v as [[s|z|b|l]|]; [apply encode_string_plain| |destruct b; plain| |plain].
  - apply Forall_forall. intros c C. apply digits_char in C as [->|C]; [unfold plain_char; lia|].
    unfold is_d in C. apply andb_true_iff in C as [A B]. apply N.leb_le in A, B. unfold plain_char. lia.
  - apply Forall_app. split; [plain|]. apply Forall_app. split; [|plain]. apply join_plain; [plain|].
    apply Forall_forall. intros x X. apply in_map_iff in X as (s & <- & _). apply encode_string_plain.
Qed.
Lemma record_prints out fs r pieces : (forall c, (c < 128)%N -> out c = Some [c]) -> concat pieces = dumps r ->
  Prints out fs (CRecord pieces) (dumps r ++ [10%N]) /\ Unbroken (CRecord pieces).
Proof.
  intros O E. assert (P := dumps_plain r). rewrite Forall_forall in P. split.
  - apply prints_record.
    + rewrite E. apply encode_bytes. revert P. generalize (dumps r). clear - O. induction s as [|c s IH]; intros P; cbn [encode_with]; auto.
      assert (C := P c (or_introl eq_refl)). unfold plain_char in C. rewrite (O c) by lia. rewrite IH; auto. intros x X. apply P. now right.
    + apply encode_bytes. cbn. now rewrite O.
  - unfold Unbroken. rewrite E. split; intros I; apply P in I; unfold plain_char in I; lia.
Qed.

(** * UTF-8 *)
Lemma utf8_none c : utf8 c = None <-> is_surrogate c = true.
Proof. unfold utf8. destruct (is_surrogate c); split; congruence. Qed.
Lemma utf8_surrogate c : is_surrogate c = true -> utf8_char c = backslash c /\ encode_with utf8 (backslash c) = Some (backslash c).
Proof.
  intros H. assert (K : (55296 <= c <= 57343)%N) by (unfold is_surrogate in H; apply andb_true_iff in H as [A B]; apply N.leb_le in A, B; lia).
  split.
  - unfold utf8_char, backslash. rewrite H. destruct (N.ltb_spec c 128); [lia|]. destruct (N.ltb_spec c 2048); [lia|]. destruct (N.ltb_spec c 256); [lia|].
    destruct (N.ltb_spec c 65536); [reflexivity|lia].
  - assert (E : Escape c (backslash c)) by (apply backslash_escape; lia). destruct E as (l & w & h & E & _ & D & L). rewrite E.
    assert (X : forall x, In x (92%N :: l :: h) -> (x < 128)%N).
    { intros x [<-|[<-|X]]; [lia|lia|]. assert (V := digits_chars _ _ _ _ D X). unfold digit_value in V.
      destruct ((48 <=? x) && (x <=? 57))%N eqn:Y; [apply andb_true_iff in Y as [_ Y]; apply N.leb_le in Y; lia|].
      destruct ((97 <=? x) && (x <=? 102))%N eqn:Z; [apply andb_true_iff in Z as [_ Z]; apply N.leb_le in Z; lia|]. congruence. }
    revert X. generalize (92%N :: l :: h). clear. induction l as [|x l IH]; intros X; cbn [encode_with]; auto.
    assert (P := X x (or_introl eq_refl)). replace (utf8 x) with (Some [x]).
    + rewrite IH; auto. intros y Y. apply X. now right.
    + unfold utf8, is_surrogate, utf8_char. destruct (N.leb_spec 55296 x); [lia|]. cbn [andb]. destruct (N.ltb_spec x 128); [auto|lia].
Qed.
Lemma utf8_shown line s b : Shown utf8 line s -> Bytes utf8 s b -> b = encode line.
Proof.
  intros H B. apply encode_bytes in B. revert b B. induction H as [|c x s t X H IH|c e s t X E H IH]; intros b B.
  - cbn in B. injection B as <-. reflexivity.
  - cbn [encode_with] in B. rewrite X in B. destruct (encode_with utf8 t) as [y|]; [|discriminate]. injection B as <-.
    unfold encode. cbn [flat_map]. rewrite (IH y eq_refl). f_equal. unfold utf8 in X. destruct (is_surrogate c); [discriminate|]. now injection X.
  - rewrite encode_app in B. apply utf8_none in X. destruct (utf8_surrogate c X) as [U1 U2]. apply escape_backslash in E. subst e.
    rewrite U2 in B. destruct (encode_with utf8 t) as [y|]; [|discriminate]. injection B as <-. unfold encode. cbn [flat_map]. rewrite (IH y eq_refl), U1. reflexivity.
Qed.
Lemma shown_id enc line b : Bytes enc line b -> Shown enc line line.
Proof. intros (p & F & _). induction F; econstructor; eauto. Qed.
Lemma utf8_prints line n t : Prints utf8 utf8 (CLine [n] line) t -> (n < 128)%N -> t = encode line ++ [n].
Proof.
  intros P L.
  assert (X : forall m, Bytes utf8 [n] m -> m = [n]).
  { intros m (p & F & ->). inversion F as [|? y ? l Y F']; subst. inversion F'; subst. cbn. unfold utf8 in Y.
    destruct (is_surrogate n) eqn:S; [discriminate|]. unfold utf8_char in Y. destruct (N.ltb_spec n 128); [|lia]. injection Y as <-. reflexivity. }
  inversion P as [newline l b m B N|newline l s b m U S B N|]; subst; apply X in N; subst; f_equal.
  - eapply utf8_shown; eauto. eapply shown_id; eauto.
  - eapply utf8_shown; eauto.
Qed.
Lemma utf8_distinct line line' n t : Forall (fun c => c < 1114112)%N line -> Forall (fun c => c < 1114112)%N line' ->
  ~ In 92%N line -> ~ In 92%N line' -> (n < 128)%N ->
  Prints utf8 utf8 (CLine [n] line) t -> Prints utf8 utf8 (CLine [n] line') t -> line = line'.
Proof.
  intros A B C D L P Q. apply utf8_prints in P, Q; auto. subst t. apply app_inj_tail in Q as [Q _]. apply encode_inj; auto.
Qed.

(** * Mixed lines *)
Lemma steps_first size tty s t u : step size tty s t -> steps size tty t u -> steps size tty s u.
Proof. intros A H. induction H as [|t' v w H IH B]; [eapply steps_more; [constructor|exact A]|eapply steps_more; eauto]. Qed.
Lemma as_bytes n : encode_with utf8 (repeat 97%N n) = Some (repeat 97%N n).
Proof. induction n as [|n IH]; [reflexivity|]. cbn [repeat encode_with]. rewrite IH. reflexivity. Qed.
Lemma as_break n : has_break (repeat 97%N n) = false.
Proof. induction n as [|n IH]; [reflexivity|]. unfold has_break in *. cbn [repeat existsb]. exact IH. Qed.
Lemma as_line n : write_line utf8 utf8 [10%N] (repeat 97%N n) = ([Write false (repeat 97%N n); Write true [10%N]; Flush], false).
Proof. unfold write_line, print, write. rewrite as_bytes, as_break. reflexivity. Qed.
Lemma prints_of newline line b n : encode_with utf8 line = Some b -> encode_with utf8 newline = Some n -> Prints utf8 utf8 (CLine newline line) (b ++ n).
Proof. intros B N. apply prints_line; now apply encode_bytes. Qed.
Ltac first0 := eapply steps_first; [apply (step_act _ _ [])|].
Ltac first1 := eapply steps_first; [apply (step_act _ _ [_])|].
Ltac call0 := eapply steps_first; [apply (step_call _ _ [])|]; cbn [app].
Ltac call1 := eapply steps_first; [apply (step_call _ _ [_])|]; cbn [app].
Lemma mixed_long size : 2 <= size -> exists c1 t1 c2 t2 st,
  Prints utf8 utf8 c1 t1 /\ Prints utf8 utf8 c2 t2 /\ Unbroken c1 /\ Unbroken c2 /\ length t2 <= size /\
  steps size false (begin [program utf8 utf8 [c1]; program utf8 utf8 [c2]]) st /\
  procs st = [Process [] [] []; Process [] [] []] /\ written st <> t1 ++ t2 /\ written st <> t2 ++ t1.
Proof.
  intros S. exists (CLine [10%N] (repeat 97%N (Datatypes.S size))), (repeat 97%N (Datatypes.S size) ++ [10%N]), (CLine [10%N] [98%N]), [98; 10]%N,
    (State [Process [] [] []; Process [] [] []] (repeat 97%N (Datatypes.S size) ++ [98; 10; 10]%N)).
  split; [apply prints_of; [apply as_bytes|reflexivity]|]. split; [now apply (prints_of [10%N] [98%N] [98%N] [10%N])|].
  assert (A : forall n c, In c (repeat 97%N n) -> c = 97%N) by (intros n c; apply repeat_spec).
  split; [split; intros I; apply A in I; discriminate|]. split; [split; intros [I|[]]; discriminate|]. split; [cbn; lia|].
  split.
  { unfold program. cbn [map then_ call_ops]. rewrite as_line. change (write_line utf8 utf8 [10%N] [98%N]) with ([Write false [98%N]; Write true [10%N]; Flush], false).
    cbn [fst app]. unfold begin. cbn [map].
    first0. { apply (act_overflow _ _ _ _ _ [repeat 97%N (Datatypes.S size)] []); [cbn [app]; rewrite repeat_length; lia|cbn [concat app]; now rewrite !app_nil_r]. }
    cbn [app]. call0. first1. { apply act_keep; [reflexivity|cbn; lia]. }
    cbn [app]. first1. { apply act_keep; [reflexivity|cbn; lia]. }
    cbn [app]. first1. { apply act_flush. cbn. lia. }
    cbn [app]. call1. first0. { apply act_keep; [reflexivity|cbn; lia]. }
    cbn [app]. first0. { apply act_flush. cbn. lia. }
    cbn [app]. call0. rewrite ?app_nil_r. rewrite <- !app_assoc. cbn [app]. apply steps_refl. }
  split; [reflexivity|]. cbn [written]. split; intros E.
  - rewrite <- app_assoc in E. apply app_inv_head in E. discriminate.
  - cbn in E. discriminate.
Qed.
Lemma mixed_terminal size : 6 <= size -> exists c1 t1 c2 t2 st,
  Prints utf8 utf8 c1 t1 /\ Prints utf8 utf8 c2 t2 /\ length t1 <= size /\ length t2 <= size /\
  steps size true (begin [program utf8 utf8 [c1]; program utf8 utf8 [c2]]) st /\
  procs st = [Process [] [] []; Process [] [] []] /\ written st <> t1 ++ t2 /\ written st <> t2 ++ t1.
Proof.
  intros S. exists (CLine [10%N] [97; 10; 97]%N), [97; 10; 97; 10]%N, (CLine [10%N] [98%N]), [98; 10]%N,
    (State [Process [] [] []; Process [] [] []] [97; 10; 97; 98; 10; 10]%N).
  split; [now apply (prints_of [10%N] [97; 10; 97]%N [97; 10; 97]%N [10%N])|]. split; [now apply (prints_of [10%N] [98%N] [98%N] [10%N])|].
  split; [cbn; lia|]. split; [cbn; lia|]. split; [|split; [reflexivity|split; discriminate]].
  change (program utf8 utf8 [CLine [10%N] [97; 10; 97]%N]) with [Write true [97; 10; 97]%N; Write true [10%N]; Flush].
  change (program utf8 utf8 [CLine [10%N] [98%N]]) with [Write false [98%N]; Write true [10%N]; Flush]. unfold begin. cbn [map].
  first0. { apply act_break; [reflexivity|cbn; lia]. }
  cbn [app]. call0. first1. { apply act_keep; [reflexivity|cbn; lia]. }
  cbn [app]. first1. { apply act_break; [reflexivity|cbn; lia]. }
  cbn [app]. call1. first1. { apply act_flush. cbn. lia. }
  cbn [app]. call1. first0. { apply act_break; [reflexivity|cbn; lia]. }
  cbn [app]. call0. first0. { apply act_flush. cbn. lia. }
  cbn [app]. call0. cbn [app]. apply steps_refl.
Qed.
Lemma whole_end size tty out fs (css : list (list (call * str))) st :
  Forall (Forall (fun x => Prints out fs (fst x) (snd x) /\ length (snd x) <= size /\ (tty = false \/ Unbroken (fst x)))) css ->
  steps size tty (begin (map (fun cs => program out fs (map fst cs)) css)) st -> Forall (fun p => ops p = [] /\ calls p = []) (procs st) ->
  exists log, written st = concat (map snd log) /\ Forall (fun e => fst e < length css) log /\
    forall i cs, nth_error css i = Some cs -> of_process i log = map snd cs.
Proof.
  intros G H E. destruct (whole _ _ _ _ _ _ G H) as (L & log & A & B & C). exists log. split; auto. split; auto. intros i cs X.
  destruct (nth_error (procs st) i) as [p|] eqn:P.
  - destruct (C _ _ _ X P) as (n & N & O & K). rewrite Forall_forall in E. destruct (E _ (nth_error_In _ _ P)) as [Z1 Z2].
    destruct (K (length cs)) as [-> _]; [lia|now rewrite skipn_all|exact Z2|]. now rewrite firstn_all in O.
  - apply nth_error_None in P. rewrite L in P. assert (nth_error css i <> None) by congruence. apply nth_error_Some in H0. lia.
Qed.
Lemma line_escaped out fs newline line : (forall c, out c = None <-> fs c = None) -> (forall c, (c < 128)%N -> out c <> None) ->
  (newline = [10%N] \/ newline = [0%N]) -> Forall (fun c => c < 1114112)%N line ->
  exists s b n ops, Shown fs line s /\ Bytes out s b /\ Bytes out newline n /\
    write_line out fs newline line = (ops, false) /\ Wrote ops (b ++ n).
Proof.
  intros A B C D. destruct (escaped_line _ _ _ _ A B C D) as (s & b & n & S & X & Y & P). apply prints_wrote in P as (ops & E & K).
  exists s, b, n, ops. auto.
Qed.
Lemma line_unchanged out fs newline line b n : Bytes out line b -> Bytes out newline n ->
  exists ops, write_line out fs newline line = (ops, false) /\ Wrote ops (b ++ n).
Proof. intros B N. apply (prints_wrote out fs (CLine newline line)). now apply prints_line. Qed.
Lemma line_raises : write_line ascii utf8 [10%N] [228%N] = ([], true).
Proof. reflexivity. Qed.
Lemma line_ambiguous : exists line line' ops, line <> line' /\ write_line utf8 utf8 [10%N] line = (ops, false) /\ write_line utf8 utf8 [10%N] line' = (ops, false).
Proof. exists [92; 117; 100; 99; 102; 102]%N, [56575%N]. eexists. split; [discriminate|]. split; [reflexivity|]. reflexivity. Qed.
