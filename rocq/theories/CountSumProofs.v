(** Proofs about --count: sums, orders, and values that can be told apart. *)
From Coq Require Import List NArith ZArith Bool Lia Permutation.
From Verif Require Import Py TypeModel FieldModel SortModel SortSpec SortProofs NaturalProofs BaseProofs CountModel CountSpec CountProofs
  CountPrintProofs CountLinesProofs.
Import ListNotations.

Section Sums.
  Context {A : Type}.
  Variable get : A -> str * str -> res value.

  Lemma occurs_perm f v l l' : Permutation l l' -> occurs get f v l = occurs get f v l'.
  Proof.
    unfold occurs. induction 1 as [|x l l' P IH|x y l|l l1 l2 P1 IH1 P2 IH2]; cbn [filter]; auto.
    - destruct (has_value get f v x); cbn [length]; congruence.
    - destruct (has_value get f v x), (has_value get f v y); reflexivity.
    - congruence.
  Qed.
  Lemma present_perm f l l' : Permutation l l' -> present_in get f l = present_in get f l'.
  Proof.
    unfold present_in. induction 1 as [|x l l' P IH|x y l|l l1 l2 P1 IH1 P2 IH2]; cbn [filter]; auto.
    - destruct (present get f x); cbn [length]; congruence.
    - destruct (present get f x), (present get f y); reflexivity.
    - congruence.
  Qed.
  Lemma sum_perm f l l' : Permutation l l' -> sum_of get f l = sum_of get f l'.
  Proof. induction 1; cbn [sum_of]; lia. Qed.
  Lemma line_perm human fields l l' line : Permutation l l' -> Line get human fields l line -> Line get human fields l' line.
  Proof.
    intros P [NE|f Hf CT Pf Mf|f m s Hf CT Pf Mf Of|f v s Hf CT Ov Es].
    - rewrite (Permutation_length P). apply line_total. intros ->. apply NE. now apply Permutation_nil, Permutation_sym.
    - rewrite (sum_perm f _ _ P). apply line_sum; auto. now rewrite <- (present_perm f _ _ P).
    - eapply line_formatted; eauto; [now rewrite <- (present_perm f _ _ P)|now rewrite <- (sum_perm f _ _ P)].
    - rewrite (occurs_perm f v _ _ P). apply line_value; auto. now rewrite <- (occurs_perm f v _ _ P).
  Qed.

  Definition nsum (l : list nat) : nat := fold_right Nat.add 0%nat l.
  Lemma values_sum f vs : NoDup vs -> forall entries, (forall v, occurs get f v entries <> 0%nat -> In v vs) ->
    nsum (map (fun v => occurs get f v entries) vs) = present_in get f entries.
  Proof.
    intros N. induction entries as [|e entries IH]; intros C.
    - unfold occurs, present_in. cbn [filter length]. clear. induction vs; cbn [map nsum fold_right]; auto.
    - assert (C' : forall v, occurs get f v entries <> 0%nat -> In v vs).
      { intros v O. apply C. unfold occurs in *. cbn [filter]. destruct (has_value get f v e); cbn [length]; lia. }
      specialize (IH C'). unfold present_in. cbn [filter]. fold (present_in get f entries).
      assert (X : forall v, occurs get f v (e :: entries) = ((if has_value get f v e then 1 else 0) + occurs get f v entries)%nat).
      { intros v. unfold occurs. cbn [filter]. destruct (has_value get f v e); reflexivity. }
      assert (Y : nsum (map (fun v => occurs get f v (e :: entries)) vs) =
        (nsum (map (fun v => if has_value get f v e then 1 else 0)%nat vs) + nsum (map (fun v => occurs get f v entries) vs))%nat).
      { clear -X. induction vs as [|v vs IH]; cbn [map nsum fold_right]; auto. rewrite X.
        change (fold_right Nat.add 0%nat) with nsum. rewrite IH. lia. }
      rewrite Y, IH. unfold present. destruct (get e (f_attribute f)) as [w|x] eqn:G.
      + cbn [length]. change (length (filter (fun e0 => match get e0 (f_attribute f) with Ok _ => true | Err _ => false end) entries)) with (present_in get f entries).
        assert (In w vs).
        { apply C. rewrite X. unfold has_value. rewrite G. destruct (value_dec w w) as [_|Z]; [lia|now elim Z]. }
        assert (Z : nsum (map (fun v => if has_value get f v e then 1 else 0)%nat vs) = 1%nat); [|lia].
        clear -N H G. induction vs as [|v vs IH]; [destruct H|]. inversion N as [|? ? N1 N2]; subst. cbn [map nsum fold_right].
        change (fold_right Nat.add 0%nat) with nsum. unfold has_value at 1. rewrite G. destruct (value_dec v w) as [->|Nv].
        * replace (nsum (map (fun v => if has_value get f v e then 1 else 0)%nat vs)) with 0%nat; [reflexivity|]. symmetry.
          clear -N1 G. induction vs as [|v vs IH]; auto. cbn [map nsum fold_right]. change (fold_right Nat.add 0%nat) with nsum.
          rewrite IH by (intros X; apply N1; now right). unfold has_value. rewrite G. destruct (value_dec v w) as [->|]; [elim N1; now left|reflexivity].
        * rewrite IH; auto. destruct H as [->|]; [now elim Nv|auto].
      + change (length (filter (fun e0 => match get e0 (f_attribute f) with Ok _ => true | Err _ => false end) entries)) with (present_in get f entries).
        assert (Z : nsum (map (fun v => if has_value get f v e then 1 else 0)%nat vs) = 0%nat); [|lia].
        clear -G. induction vs as [|v vs IH]; auto. cbn [map nsum fold_right]. change (fold_right Nat.add 0%nat) with nsum. rewrite IH.
        unfold has_value. now rewrite G.
  Qed.

  Variable human : ty -> Z -> str.
  Lemma add_up fields entries f l : well_typed get fields entries -> distinguishable get human fields entries ->
    In f fields -> count_of (f_type f) = COUNT -> Texts get human f entries l ->
    fold_right Z.add 0%Z (map snd l) = Z.of_nat (present_in get f entries).
  Proof.
    intros W D Hf CT [TN TI].
    assert (V : exists vs, Forall2 (fun t v => occurs get f v entries <> 0%nat /\ output human (f_type f) (f_modifier f) v = Ok (fst t) /\
      snd t = Z.of_nat (occurs get f v entries)) l vs).
    { assert (G : forall l', incl l' l -> exists vs, Forall2 (fun t v => occurs get f v entries <> 0%nat /\ output human (f_type f) (f_modifier f) v = Ok (fst t) /\
        snd t = Z.of_nat (occurs get f v entries)) l' vs).
      { induction l' as [|[s n] l' IH]; intros I; [exists []; constructor|]. destruct IH as [vs F]; [intros x Hx; apply I; now right|].
        destruct (proj1 (TI s n) (I _ (or_introl eq_refl))) as (v & O & E & ->). exists (v :: vs). constructor; auto. }
      apply G. intros x; auto. }
    destruct V as [vs F].
    assert (N : NoDup vs).
    { clear TI. induction F as [|[s n] v l vs (O & E & _) F IH]; [constructor|]. cbn [map fst] in TN. inversion TN as [|? ? N1 N2]; subst. constructor; [|auto].
      intros I. apply N1. clear -F I E. induction F as [|[s' n'] v' l vs (O' & E' & _) F IH]; [destruct I|]. cbn [map fst In] in *.
      destruct I as [->|I]; [left; congruence|right; auto]. }
    assert (C : forall v, occurs get f v entries <> 0%nat -> In v vs).
    { intros v O. assert (Cv : conforms (f_type f) v = true) by (apply (occurs_conforms get f v entries); auto).
      destruct (output_ok human (f_type f) (f_modifier f) v Cv) as [s Es].
      assert (I : In (s, Z.of_nat (occurs get f v entries)) l) by (apply TI; eauto).
      clear TN TI N. revert I. induction F as [|[s' n'] w l vs (O' & E' & _) F IH]; [intros []|]. cbn [fst snd In] in *. intros [[= -> ->]|I]; [|auto].
      left. apply (D f); auto. congruence. }
    rewrite <- (values_sum f vs N entries C). clear TN TI N C. induction F as [|t v l vs (_ & _ & E) F IH]; [reflexivity|].
    cbn [map fold_right nsum] in *. change (fold_right Nat.add 0%nat) with nsum in *. rewrite IH, E. lia.
  Qed.

  Lemma plain_distinguishable fields entries : well_typed get fields entries ->
    (forall f, In f fields -> f_modifier f = Some ($"h") -> f_type f <> TMode /\ f_type f <> TTime) -> distinguishable get human fields entries.
  Proof.
    intros W H f v w Hf CT Ov Ow E.
    assert (Cv : conforms (f_type f) v = true) by (apply (occurs_conforms get f v entries); auto).
    assert (Cw : conforms (f_type f) w = true) by (apply (occurs_conforms get f w entries); auto).
    assert (NH : f_type f = TMode \/ f_type f = TTime -> match f_modifier f with Some m => str_eqb m ($"h") | None => false end = false).
    { intros T. destruct (f_modifier f) as [m|] eqn:M; auto. apply str_eqb_neq. intros ->. destruct (H f Hf M). tauto. }
    destruct (f_type f); try discriminate CT; destruct v, w; try discriminate Cv; try discriminate Cw; cbn [output py_str] in E;
      try rewrite !NH in E by auto; injection E as E; try (now subst); try (f_equal; now apply (number_output_inj (f_modifier f))).
    destruct b, b0; auto; discriminate E.
  Qed.

  Lemma natural_uniform fields entries f : well_typed get fields entries -> In f fields ->
    In (f_type f) [TNumber; TMode; TTime] -> f_modifier f = None ->
    (forall e z, In e entries -> get e (f_attribute f) = Ok (VInt z) -> (0 <= z)%Z) -> uniform get human f entries.
  Proof.
    intros W Hf T M NN.
    assert (G : forall s, (exists v, occurs get f v entries <> 0%nat /\ output human (f_type f) (f_modifier f) v = Ok s) -> numeral s /\ decimal_digits s).
    { intros s (v & O & E). assert (Cv : conforms (f_type f) v = true) by (apply (occurs_conforms get f v entries); auto).
      assert (V : exists z, v = VInt z /\ s = str_of_Z z).
      { rewrite M in E. cbn [In] in T. destruct T as [T|[T|[T|[]]]]; rewrite <- T in *; destruct v; try discriminate Cv; cbn [output number_output] in E; injection E as <-; eauto. }
      destruct V as (z & -> & ->).
      assert (Z : (0 <= z)%Z).
      { unfold occurs in O. destruct (filter (has_value get f (VInt z)) entries) as [|e l] eqn:F; [now elim O|].
        assert (I : In e (filter (has_value get f (VInt z)) entries)) by (rewrite F; now left).
        apply filter_In in I. destruct I as [I X]. unfold has_value in X. destruct (get e (f_attribute f)) as [w|] eqn:Gw; [|discriminate].
        destruct (value_dec (VInt z) w) as [<-|]; [|discriminate]. eauto. }
      rewrite str_of_Z_nonneg by exact Z.
      assert (D : decimal_digits (str_of_N (Z.to_N z))) by (apply decimal_d, str_of_N_digits).
      split; [|exact D]. split; [apply uint_str_nonnil|]. eapply Forall_impl; [|exact D]. cbn beta. tauto. }
    split; [intros s Hs _; exact (proj2 (G s Hs))|left; intros s Hs; exact (proj1 (G s Hs))].
  Qed.
  Lemma boolean_uniform fields entries f : well_typed get fields entries -> In f fields -> f_type f = TBoolean -> uniform get human f entries.
  Proof.
    intros W Hf T.
    assert (G : forall s, (exists v, occurs get f v entries <> 0%nat /\ output human (f_type f) (f_modifier f) v = Ok s) -> ~ numeral s).
    { intros s (v & O & E). assert (Cv : conforms (f_type f) v = true) by (apply (occurs_conforms get f v entries); auto).
      rewrite T in *. destruct v; try discriminate Cv. cbn [output] in E. injection E as <-. intros N. apply isdigit_numeral in N. destruct b; discriminate N. }
    split; [|right]; intros s Hs; [intros N; elim (G s Hs N)|now apply G].
  Qed.
End Sums.
