From Coq Require Import List NArith ZArith Bool Lia ZifyBool.
From Verif Require Import Py Re ExprModel ExprSpec ExprProofs GlobModel TypeModel TypeSpec RegistryModel TestModel.
Import ListNotations.
Local Open Scope Z_scope.

(** ** Numbers *)
Lemma number_op op : In op (operators TNumber) -> forall t v, number_test op t v = true <-> Compare v t op.
Proof.
  intros H t v. cbn [operators In] in H.
  destruct H as [<-|[<-|[<-|[<-|[<-|[]]]]]]; unfold number_test;
    repeat match goal with |- context[str_eqb ?a ?b] =>
      let e := eval vm_compute in (str_eqb a b) in change (str_eqb a b) with e end;
    cbn [andb orb]; rewrite ?orb_false_r; split.
  all: try (intros E; constructor; lia).
  all: intros E; inversion E; lia.
Qed.

(** ** Modes *)
Lemma MODE_ALL_ones : MODE_ALL = Z.ones 12.
Proof. reflexivity. Qed.
Lemma land_all_bit v i : Z.testbit (Z.land v MODE_ALL) i = Z.testbit v i && ((0 <=? i) && (i <? 12)).
Proof.
  rewrite Z.land_spec, MODE_ALL_ones. f_equal.
  destruct (Z.ltb_spec i 0) as [L|L].
  - rewrite Z.testbit_neg_r by lia. lia.
  - rewrite Z.testbit_ones_nonneg by lia. lia.
Qed.
Lemma mode_op op : In op (operators TMode) -> forall t v, mode_test op t v = true <-> ModeTest v t op.
Proof.
  intros H t v. cbn [operators In] in H.
  destruct H as [<-|[<-|[<-|[]]]]; unfold mode_test;
    repeat match goal with |- context[str_eqb ?a ?b] =>
      let e := eval vm_compute in (str_eqb a b) in change (str_eqb a b) with e end;
    cbn [andb orb]; rewrite ?orb_false_r.
  - rewrite Z.eqb_eq. split.
    + intros E. constructor. intros i Hi. assert (B := f_equal (fun z => Z.testbit z i) E). cbv beta in B.
      rewrite !land_all_bit in B. unfold permission in Hi.
      replace ((0 <=? i) && (i <? 12)) with true in B by lia. now rewrite !andb_true_r in B.
    + intros E. inversion E as [E'| |]; subst. apply Z.bits_inj'. intros i Hi. rewrite !land_all_bit.
      destruct (Z.ltb_spec i 12); [|rewrite !andb_false_r; reflexivity].
      now rewrite E' by (unfold permission; lia).
  - rewrite Z.eqb_eq. split.
    + intros E. constructor. intros i Hi Ht. assert (B := f_equal (fun z => Z.testbit z i) E). cbv beta in B.
      rewrite Z.land_spec, !land_all_bit in B. unfold permission in Hi.
      replace ((0 <=? i) && (i <? 12)) with true in B by lia. rewrite Ht in B. cbn in B.
      rewrite !andb_true_r in B. exact B.
    + intros E. inversion E as [|E'|]; subst. apply Z.bits_inj'. intros i Hi.
      rewrite Z.land_spec, !land_all_bit.
      destruct (Z.ltb_spec i 12); [|rewrite !andb_false_r; reflexivity].
      destruct (Z.testbit t i) eqn:Ht; [|cbn; now rewrite andb_false_r].
      rewrite (E' i) by (auto; unfold permission; lia). replace (0 <=? i) with true by lia. reflexivity.
  - rewrite negb_true_iff, Z.eqb_neq. split.
    + intros E. constructor.
      destruct (existsb (fun i => Z.testbit t i && Z.testbit v i) [0;1;2;3;4;5;6;7;8;9;10;11]) eqn:X.
      * apply existsb_exists in X as (i & Hi & X). apply andb_true_iff in X as [X1 X2].
        exists i. split; [|auto]. unfold permission. cbn in Hi. intuition lia.
      * exfalso. apply E. apply Z.bits_inj'. intros i Hi. rewrite Z.land_spec, !land_all_bit, Z.bits_0.
        destruct (Z.ltb_spec i 12); [|now rewrite !andb_false_r].
        destruct (Z.testbit v i && Z.testbit t i) eqn:Y.
        -- exfalso. assert (G : existsb (fun i => Z.testbit t i && Z.testbit v i) [0;1;2;3;4;5;6;7;8;9;10;11] = true).
           { apply existsb_exists. exists i. split; [|now rewrite andb_comm]. cbn. lia. }
           congruence.
        -- destruct (Z.testbit v i); [|reflexivity]. cbn [andb] in Y |- *. rewrite Y. cbn. now rewrite andb_false_r.
    + intros E. inversion E as [| |(i & Hi & Ht & Hv)]; subst. intros Z0.
      assert (B := f_equal (fun z => Z.testbit z i) Z0). cbv beta in B.
      rewrite Z.land_spec, !land_all_bit, Z.bits_0 in B. rewrite Ht, Hv in B. unfold permission in Hi.
      replace ((0 <=? i) && (i <? 12)) with true in B by lia. discriminate.
Qed.

(** *** Symbolic modes *)
Definition ugoa := Cls false false [CChar 117; CChar 103; CChar 111; CChar 97]%N.
Definition mopcls := Cls false false [CChar 45; CChar 43; CChar 61]%N.
Definition permcls := Cls false false [CChar 114; CChar 119; CChar 120; CChar 88; CChar 115; CChar 116]%N.
Definition octcls := Cls false false [CRange 48 55]%N.
Lemma mode_re_eq : mode_re =
  Alt (Cat (Cat (Cat Eps (Grp 1 (Cat Eps (Star true ugoa)))) (Grp 2 (Cat Eps (Chr mopcls))))
           (Grp 3 (Cat Eps (Cat (Chr permcls) (Star true permcls)))))
      (Cat (Cat (Cat Eps (Opt true (Grp 4 (Cat Eps (Chr mopcls))))) (Grp 5 (Cat Eps (Cat (Chr octcls) (Star true octcls))))) Eol).
Proof. reflexivity. Qed.

Lemma who_mem w : mem ugoa (who_char w) = true.
Proof. now destruct w. Qed.
Lemma mop_mem o : mem mopcls (mop_char o) = true /\ mem ugoa (mop_char o) = false.
Proof. now destruct o. Qed.
Lemma perm_mem p : mem permcls (perm_char p) = true.
Proof. now destruct p. Qed.
Lemma forallb_map {A B} (p : B -> bool) (f : A -> B) l : (forall a, p (f a) = true) -> forallb p (map f l) = true.
Proof. intros H. induction l; cbn; [reflexivity|]. now rewrite H. Qed.

Lemma clause_match c : c_perms c <> [] ->
  re_match mode_re (clause_text c) =
  Some ([], [(3%nat, map perm_char (c_perms c)); (2%nat, [mop_char (c_op c)]); (1%nat, map who_char (c_who c))]).
Proof.
  intros Hp. unfold re_match, clause_text. rewrite mode_re_eq.
  set (n0 := length _).
  change (m n0 (Alt ?a ?b) ?s ?c ?q) with (orelse (m n0 a s c q) (m n0 b s c q)).
  apply orelse_l. do 3 apply m_cat. apply m_eps. apply m_grp. apply m_cat, m_eps.
  cbn [m]. apply star_g_run; [apply forallb_map, who_mem|apply mop_mem|].
  unfold str, char in *. rewrite firstn_sub.
  cbn [app]. rewrite (proj1 (mop_mem (c_op c))).
  destruct (c_perms c) as [|p l]; [easy|]. cbn [map]. rewrite perm_mem.
  match goal with |- star_g _ ?t ?k = _ => change (star_g (mem permcls) t k) with (star_g (mem permcls) t k);
    assert (G : star_g (mem permcls) (map perm_char l ++ []) k = Some ([], [(3%nat, map perm_char (p :: l)); (2%nat, [mop_char (c_op c)]); (1%nat, map who_char (c_who c))])) end.
  { apply star_g_run; [apply forallb_map, perm_mem|exact I|].
    cbn [firstn length]. change (@length N []) with 0%nat. rewrite ?Nat.sub_0_r.
    match goal with |- context[(S (S ?a) - S ?b)%nat] => replace (S (S a) - S b)%nat with 1%nat by lia end.
    cbn [firstn]. now rewrite firstn_all. }
  rewrite app_nil_r in G. exact G.
Qed.

(** Bits. *)
Lemma testbit_lors_who l a i : 0 <= i ->
  Z.testbit (fold_left (fun a c => Z.lor a (who_bits c)) (map who_char l) a) i =
  Z.testbit a i || existsb (fun w => selects w i) l.
Proof.
  intros Hi. revert a. induction l as [|w l IH]; intros a; cbn [map fold_left existsb]; [now rewrite orb_false_r|].
  rewrite IH, Z.lor_spec, <- orb_assoc. f_equal. f_equal.
  destruct (Z.ltb_spec i 12) as [L|L].
  - assert (C : i = 0 \/ i = 1 \/ i = 2 \/ i = 3 \/ i = 4 \/ i = 5 \/ i = 6 \/ i = 7 \/ i = 8 \/ i = 9 \/ i = 10 \/ i = 11) by lia.
    destruct w; repeat (destruct C as [-> |C]; [reflexivity|]); subst; reflexivity.
  - assert (B : forall z, 0 <= z < 2 ^ 12 -> Z.testbit z i = false).
    { intros z [H1 H2]. destruct (Z.eq_dec z 0) as [-> |]; [apply Z.bits_0|].
      apply Z.bits_above_log2; [lia|]. apply Z.log2_lt_pow2; [lia|].
      eapply Z.lt_le_trans; [exact H2|]. apply Z.pow_le_mono_r; lia. }
    rewrite B by (destruct w; vm_compute; split; congruence).
    destruct w; cbn; lia.
Qed.
Lemma testbit_lors_perm m l a i : 0 <= i -> ~ In PExecIf l ->
  Z.testbit (fold_left (fun a c => Z.lor a (perm_bits c)) (map perm_char l) a) i =
  Z.testbit a i || existsb (fun p => grants m p i) l.
Proof.
  intros Hi. revert a. induction l as [|w l IH]; intros a Hx; cbn [map fold_left existsb]; [now rewrite orb_false_r|].
  rewrite IH, Z.lor_spec, <- orb_assoc by (intros ?; apply Hx; now right). f_equal. f_equal.
  destruct (Z.ltb_spec i 12) as [L|L].
  - assert (C : i = 0 \/ i = 1 \/ i = 2 \/ i = 3 \/ i = 4 \/ i = 5 \/ i = 6 \/ i = 7 \/ i = 8 \/ i = 9 \/ i = 10 \/ i = 11) by lia.
    destruct w; try (exfalso; apply Hx; now left);
      repeat (destruct C as [-> |C]; [reflexivity|]); subst; reflexivity.
  - assert (B : forall z, 0 <= z < 2 ^ 12 -> Z.testbit z i = false).
    { intros z [H1 H2]. destruct (Z.eq_dec z 0) as [-> |]; [apply Z.bits_0|].
      apply Z.bits_above_log2; [lia|]. apply Z.log2_lt_pow2; [lia|].
      eapply Z.lt_le_trans; [exact H2|]. apply Z.pow_le_mono_r; lia. }
    rewrite B by (destruct w; vm_compute; split; congruence).
    destruct w; try (exfalso; apply Hx; now left); cbn; lia.
Qed.

Lemma mode_part_clause c a r : c_perms c <> [] -> ~ In PExecIf (c_perms c) ->
  exists (a' r' : Z), mode_part (clause_text c) a r = Some (a', r') /\
    forall i, 0 <= i ->
      Z.testbit a' i = Z.testbit a i || selected c i /\
      forall m, Z.testbit r' i =
        (let given := existsb (fun p => grants m p i) (c_perms c) in
         match c_op c with
         | MAdd | MSet => Z.testbit r i || given
         | MRemove => Z.testbit r i && negb given
         end).
Proof.
  intros Hp Hx. unfold mode_part. rewrite clause_match by exact Hp.
  cbn [group Nat.eqb]. eexists. eexists. split; [reflexivity|]. intros i Hi. split.
  - unfold selected. destruct (c_who c) as [|w l] eqn:E.
    + cbn [map]. change ($"a") with (map who_char [WAll]). rewrite testbit_lors_who by exact Hi.
      cbn [existsb]. now rewrite orb_false_r.
    + cbn [map]. change (who_char w :: map who_char l) with (map who_char (w :: l)).
      now rewrite testbit_lors_who.
  - intros m. cbv zeta. destruct (c_op c); cbn [mop_char].
    + change (str_in [43%N] [$"+"; $"="]) with true. cbv iota.
      now rewrite Z.lor_spec, (testbit_lors_perm m), Z.bits_0.
    + change (str_in [45%N] [$"+"; $"="]) with false. change (str_eqb [45%N] ($"-")) with true. cbv iota.
      now rewrite Z.land_spec, Z.lnot_spec, (testbit_lors_perm m), Z.bits_0.
    + change (str_in [61%N] [$"+"; $"="]) with true. cbv iota.
      now rewrite Z.lor_spec, (testbit_lors_perm m), Z.bits_0.
Qed.

Section SameWho.
  Variable sel : Z -> bool.
  Definition tame (c : clause) : Prop :=
    c_perms c <> [] /\ ~ In PExecIf (c_perms c) /\ forall i, 0 <= i -> selected c i = sel i.
  Definition agree (a r : Z) (mm : Z -> bool) : Prop :=
    forall i, 0 <= i -> Z.testbit a i = sel i /\ (sel i = true -> Z.testbit r i = mm i) /\ (sel i = false -> mm i = false).

  Lemma mode_loop_agree l : Forall tame l -> Forall (fun c => c_op c <> MSet) l ->
    forall a r mm, agree a r mm ->
    exists a' r', mode_loop (map clause_text l) a r = Some (a', r') /\ agree a' r' (fold_left apply_clause l mm).
  Proof.
    induction l as [|c l IH]; intros Ht Hs a r mm Ha; cbn [map mode_loop fold_left].
    - eauto.
    - inversion Ht as [|? ? (Hp & Hx & Hsel) Ht']; inversion Hs as [|? ? Hs1 Hs']; subst.
      destruct (mode_part_clause c a r Hp Hx) as (a1 & r1 & E & H). rewrite E.
      apply IH; [exact Ht'|exact Hs'|]. intros i Hi.
      destruct (H i Hi) as [H1 H2]. destruct (Ha i Hi) as (A1 & A2 & A3). specialize (H2 mm).
      rewrite Hsel in H1 by exact Hi. split; [rewrite H1, A1; apply orb_diag|].
      unfold apply_clause. rewrite Hsel by exact Hi. cbv zeta in *. split.
      + intros S. rewrite H2, S, A2 by exact S. cbn [andb]. destruct (c_op c); [reflexivity|reflexivity|congruence].
      + intros S. rewrite S, A3 by exact S. destruct (c_op c); [reflexivity|reflexivity|congruence].
  Qed.
End SameWho.

Lemma clauses_join l : clauses_text l = join_with [44%N] (map clause_text l).
Proof.
  induction l as [|c l IH]; [reflexivity|]. cbn [map]. destruct l as [|c' l]; [reflexivity|].
  change (clauses_text (c :: c' :: l)) with (clause_text c ++ $"," ++ clauses_text (c' :: l)). rewrite IH. reflexivity.
Qed.

Lemma clause_no_comma c : ~ In 44%N (clause_text c).
Proof.
  unfold clause_text. rewrite !in_app_iff. intros [H|[H|H]].
  - apply in_map_iff in H as (w & E & _). destruct w; discriminate.
  - destruct H as [H|[]]. destruct (c_op c); discriminate.
  - apply in_map_iff in H as (w & E & _). destruct w; discriminate.
Qed.
Lemma split_clauses l : l <> [] -> split_on 44%N (clauses_text l) = map clause_text l.
Proof.
  intros H. rewrite clauses_join. apply split_join; [now destruct l|].
  intros x Hx. apply in_map_iff in Hx as (c & <- & _). apply clause_no_comma.
Qed.

Lemma selected_range c i : selected c i = true -> 0 <= i < 12.
Proof.
  assert (S : forall w, selects w i = true -> 0 <= i < 12) by (intros []; cbn; lia).
  unfold selected. destruct (c_who c) as [|w l]; [apply S|]. intros H.
  apply existsb_exists in H as (x & _ & H). eauto.
Qed.

Lemma parse_mode_same c l :
  c_perms c <> [] -> ~ In PExecIf (c_perms c) ->
  (forall c', In c' l -> c_perms c' <> [] /\ ~ In PExecIf (c_perms c') /\ c_op c' <> MSet /\
              forall i, 0 <= i -> selected c' i = selected c i) ->
  exists z, parse_mode (clauses_text (c :: l)) = Ok z /\
    forall i, 0 <= i -> Z.testbit z i = denotes (c :: l) i.
Proof.
  intros Hp Hx Hl. unfold parse_mode. rewrite split_clauses by easy. cbn [map mode_loop].
  destruct (mode_part_clause c 0 0 Hp Hx) as (a1 & r1 & E & H). rewrite E.
  destruct (mode_loop_agree (selected c) l) with (a := a1) (r := r1) (mm := apply_clause (fun _ => false) c)
    as (a' & r' & E' & A).
  - apply Forall_forall. intros c' Hc'. destruct (Hl c' Hc') as (H1 & H2 & _ & H3). repeat split; auto.
  - apply Forall_forall. intros c' Hc'. now destruct (Hl c' Hc') as (_ & _ & H3 & _).
  - intros i Hi. destruct (H i Hi) as [H1 H2]. rewrite Z.bits_0 in H1. split; [exact H1|].
    specialize (H2 (fun _ => false)). cbv zeta in H2. rewrite Z.bits_0 in H2.
    unfold apply_clause. split; intros S; rewrite S; [rewrite H2|]; now destruct (c_op c).
  - rewrite E'. eexists. split; [reflexivity|]. intros i Hi. destruct (A i Hi) as (A1 & A2 & A3).
    rewrite Z.land_spec, A1. change (denotes (c :: l)) with (fold_left apply_clause l (apply_clause (fun _ => false) c)).
    destruct (selected c i) eqn:S; [rewrite A2 by reflexivity; reflexivity|]. now rewrite A3.
Qed.

(** *** Octal modes *)
Lemma mem_oct c : mem octcls c = true <-> (48 <= c <= 55)%N.
Proof. unfold octcls. rewrite mem_pos. cbn [items_mem existsb item_mem]. unfold between. lia. Qed.
Lemma octal_mem s : octal_digits s -> s <> [] /\ forallb (mem octcls) s = true.
Proof. intros [H1 H2]. split; [exact H1|]. apply forallb_forall. intros c Hc. now apply mem_oct, H2. Qed.
Lemma octal_eq s : octal_digits s -> octal s = octal_value s.
Proof.
  intros [_ H]. unfold octal. assert (G : forall a, 
    fold_left (fun a c => a * 8 + Z.of_N (dig c)) s a = a * 8 ^ Z.of_nat (length s) + octal_value s).
  { induction s as [|c t IH]; intros a; cbn [fold_left length octal_value].
    - change (8 ^ Z.of_nat 0) with 1. lia.
    - rewrite IH by (intros; apply H; now right). rewrite Nat2Z.inj_succ, Z.pow_succ_r by lia.
      assert (Hc := H c (or_introl eq_refl)). unfold dig. rewrite N2Z.inj_sub by lia.
      change (Z.of_N 48) with 48. ring. }
  rewrite G. lia.
Qed.

Lemma octal_match s : octal_digits s -> re_match mode_re s = Some ([], [(5%nat, s)]).
Proof.
  intros H. apply octal_mem in H as [Hn Hm]. unfold re_match. rewrite mode_re_eq. set (n0 := length s).
  destruct s as [|c s]; [easy|]. cbn [forallb] in Hm. apply andb_true_iff in Hm as [Hc Hm].
  assert (R := proj1 (mem_oct c) Hc).
  assert (U : mem ugoa c = false) by (unfold ugoa; rewrite mem_pos; cbn [items_mem existsb item_mem]; lia).
  assert (O : mem mopcls c = false) by (unfold mopcls; rewrite mem_pos; cbn [items_mem existsb item_mem]; lia).
  change (m n0 (Alt ?a ?b) ?s ?c ?q) with (orelse (m n0 a s c q) (m n0 b s c q)).
  apply orelse_r.
  - do 3 apply m_cat. apply m_eps, m_grp, m_cat, m_eps. cbn [m star_g]. now rewrite U, O.
  - do 3 apply m_cat. apply m_eps.
    change (m n0 (Opt true ?a) ?s ?c ?q) with (orelse (m n0 a s c q) (q s c)). apply orelse_r.
    + apply m_grp, m_cat, m_eps. cbn [m]. now rewrite O.
    + apply m_grp, m_cat, m_eps, m_cat. cbn [m]. rewrite Hc.
      rewrite <- (app_nil_r s) at 1. apply star_g_run; [exact Hm|exact I|]. cbn [at_end].
      change (@length char []) with 0%nat. rewrite Nat.sub_0_r. now rewrite firstn_all.
Qed.
Lemma octal_sign_match o s : octal_digits s ->
  re_match mode_re (mop_char o :: s) = Some ([], [(5%nat, s); (4%nat, [mop_char o])]).
Proof.
  intros H. apply octal_mem in H as [Hn Hm]. unfold re_match. rewrite mode_re_eq. set (n0 := length (mop_char o :: s)).
  destruct s as [|c s]; [easy|]. cbn [forallb] in Hm. apply andb_true_iff in Hm as [Hc Hm].
  assert (R := proj1 (mem_oct c) Hc).
  assert (P : mem permcls c = false) by (unfold permcls; rewrite mem_pos; cbn [items_mem existsb item_mem]; lia).
  destruct (mop_mem o) as [O1 O2].
  change (m n0 (Alt ?a ?b) ?s ?c ?q) with (orelse (m n0 a s c q) (m n0 b s c q)).
  apply orelse_r.
  - do 3 apply m_cat. apply m_eps, m_grp, m_cat, m_eps. cbn [m star_g]. now rewrite O2, O1, P.
  - do 3 apply m_cat. apply m_eps.
    change (m n0 (Opt true ?a) ?s ?c ?q) with (orelse (m n0 a s c q) (q s c)). apply orelse_l.
    apply m_grp, m_cat, m_eps. cbn [m]. rewrite O1, Hc.
    rewrite <- (app_nil_r s) at 1. apply star_g_run; [exact Hm|exact I|]. cbn [at_end].
    change (@length char []) with 0%nat. rewrite Nat.sub_0_r. rewrite firstn_all.
    match goal with |- context[(length (mop_char o :: c :: s) - length (c :: s))%nat] =>
      replace (length (mop_char o :: c :: s) - length (c :: s))%nat with 1%nat by (cbn [length]; lia) end.
    reflexivity.
Qed.
Lemma octal_no_comma s : octal_digits s -> ~ In 44%N s.
Proof. intros [_ H] Hin. apply H in Hin. lia. Qed.
Lemma parse_mode_octal s : octal_digits s -> parse_mode s = Ok (Z.land MODE_ALL (octal_value s)).
Proof.
  intros H. unfold parse_mode. rewrite split_on_nosep by now apply octal_no_comma.
  cbn [mode_loop]. unfold mode_part. rewrite octal_match by exact H. cbn [group Nat.eqb].
  change (str_in ($"=") [$"+"; $"="]) with true. cbv iota. now rewrite Z.lor_0_l, octal_eq.
Qed.
Lemma parse_mode_octal_sign o s : octal_digits s ->
  parse_mode (mop_char o :: s) = Ok (match o with MRemove => 0 | _ => Z.land MODE_ALL (octal_value s) end).
Proof.
  intros H. unfold parse_mode. rewrite split_on_nosep.
  2:{ intros [E|Hin]; [now destruct o|]. now apply octal_no_comma in Hin. }
  cbn [mode_loop]. unfold mode_part. rewrite octal_sign_match by exact H. cbn [group Nat.eqb].
  destruct o; cbn [mop_char].
  - change (str_in [43%N] [$"+"; $"="]) with true. cbv iota. now rewrite Z.lor_0_l, octal_eq.
  - change (str_in [45%N] [$"+"; $"="]) with false. change (str_eqb [45%N] ($"-")) with true. cbv iota.
    now rewrite Z.land_0_l, Z.land_0_r.
  - change (str_in [61%N] [$"+"; $"="]) with true. cbv iota. now rewrite Z.lor_0_l, octal_eq.
Qed.
Lemma land_octal v i : 0 <= v -> Z.testbit (Z.land MODE_ALL v) i = (i <? 12) && Z.testbit v i.
Proof.
  intros Hv. rewrite Z.land_comm, land_all_bit. destruct (Z.ltb_spec i 0).
  - rewrite Z.testbit_neg_r by lia. now rewrite andb_false_r.
  - replace (0 <=? i) with true by lia. now rewrite andb_comm.
Qed.
