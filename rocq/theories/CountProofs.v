(** Proofs about --count: what is collected. *)
From Coq Require Import List NArith ZArith Bool Lia Permutation.
From Verif Require Import Py TypeModel FieldModel SortModel SortSpec CountModel CountSpec.
Import ListNotations.

(** * Dictionaries *)
Section Dict.
  Context {K V I : Type}.
  Variable eqb : K -> K -> bool.
  Variable id : K -> I.
  Hypothesis eqb_id : forall a b, eqb a b = true <-> id a = id b.

  Lemma eqb_cases a b : (eqb a b = true /\ id a = id b) \/ (eqb a b = false /\ id a <> id b).
  Proof.
    destruct (eqb a b) eqn:E; [left|right]; split; auto; [now apply eqb_id|].
    intros H. apply eqb_id in H. congruence.
  Qed.
  Lemma dict_get_set k k' (v : V) d : dict_get eqb k (dict_set eqb k' v d) = if eqb k k' then Some v else dict_get eqb k d.
  Proof.
    induction d as [|[q w] d IH]; cbn [dict_set dict_get].
    - reflexivity.
    - destruct (eqb_cases k' q) as [[-> E1]|[-> E1]]; cbn [dict_get].
      + destruct (eqb_cases k q) as [[-> E2]|[-> E2]], (eqb_cases k k') as [[-> E3]|[-> E3]]; auto; congruence.
      + rewrite IH. destruct (eqb_cases k q) as [[-> E2]|[-> E2]], (eqb_cases k k') as [[-> E3]|[-> E3]]; auto; congruence.
  Qed.
  Lemma dict_get_ext k k' (d : list (K * V)) : id k = id k' -> dict_get eqb k d = dict_get eqb k' d.
  Proof.
    intros H. induction d as [|[q w] d IH]; cbn [dict_get]; auto. rewrite IH.
    destruct (eqb_cases k q) as [[-> E2]|[-> E2]], (eqb_cases k' q) as [[-> E3]|[-> E3]]; auto; congruence.
  Qed.
  Lemma dict_set_keys k (v : V) d q : In q (map fst (dict_set eqb k v d)) -> q = k \/ In q (map fst d).
  Proof.
    induction d as [|[r w] d IH]; cbn [dict_set map fst In]; [intuition|].
    destruct (eqb k r); cbn [map fst In]; intuition.
  Qed.
  Lemma dict_set_ids k (v : V) d i : In i (map id (map fst (dict_set eqb k v d))) <-> i = id k \/ In i (map id (map fst d)).
  Proof.
    induction d as [|[r w] d IH]; cbn [dict_set map fst In]; [intuition|].
    destruct (eqb_cases k r) as [[-> E]|[-> E]]; cbn [map fst In]; [rewrite E; intuition|rewrite IH; intuition].
  Qed.
  Lemma dict_set_nodup k (v : V) d : NoDup (map id (map fst d)) -> NoDup (map id (map fst (dict_set eqb k v d))).
  Proof.
    induction d as [|[r w] d IH]; cbn [dict_set map fst]; intros H; [repeat constructor; auto|].
    inversion H; subst. destruct (eqb_cases k r) as [[-> E]|[-> E]]; cbn [map fst]; constructor; auto.
    rewrite dict_set_ids. intuition.
  Qed.
  Lemma dict_get_in k (v : V) d : dict_get eqb k d = Some v -> exists k', id k' = id k /\ In (k', v) d.
  Proof.
    induction d as [|[q w] d IH]; cbn [dict_get]; [discriminate|].
    destruct (eqb_cases k q) as [[-> E]|[-> E]].
    - intros [= ->]. exists q. split; auto. now left.
    - intros H. destruct (IH H) as (k' & H1 & H2). exists k'. split; auto. now right.
  Qed.
  Lemma dict_get_none k (d : list (K * V)) : dict_get eqb k d = None <-> ~ In (id k) (map id (map fst d)).
  Proof.
    induction d as [|[q w] d IH]; cbn [dict_get map fst In]; [intuition|].
    destruct (eqb_cases k q) as [[-> E]|[-> E]].
    - split; [discriminate|]. intros H. exfalso. apply H. left. congruence.
    - rewrite IH. intuition.
  Qed.
  Lemma dict_in_get k (v : V) d : NoDup (map id (map fst d)) -> In (k, v) d -> dict_get eqb k d = Some v.
  Proof.
    induction d as [|[q w] d IH]; cbn [dict_get map fst In]; [intros _ []|]. intros N [E|H]; inversion N; subst.
    - injection E as -> ->. destruct (eqb_cases k k) as [[-> E]|[_ E]]; [auto|now elim E].
    - destruct (eqb_cases k q) as [[-> E]|[-> E]]; [|auto].
      exfalso. match goal with H : ~ In _ _ |- _ => apply H end. rewrite <- E. apply in_map. change k with (fst (k, v)). now apply in_map.
  Qed.
End Dict.

(** Equality of keys *)
Definition cid (k : ckey) := match k with KTotal => None | KField f => Some (ident f) end.
Lemma opt_eqb_iff a b : opt_eqb a b = true <-> a = b.
Proof.
  destruct a as [a|], b as [b|]; cbn [opt_eqb]; try rewrite str_eqb_eq; split; try congruence; auto.
Qed.
Lemma ty_eqb_iff a b : ty_eqb a b = true <-> a = b.
Proof. destruct a, b; split; intros H; (reflexivity || discriminate H). Qed.
Lemma field_eqb_iff f g : field_eqb f g = true <-> ident f = ident g.
Proof.
  unfold field_eqb, ident. rewrite !andb_true_iff, !str_eqb_eq, ty_eqb_iff, !opt_eqb_iff.
  destruct f as [[a1 a2] ? t w m], g as [[b1 b2] ? t' w' m']; cbn [f_attribute f_type f_width f_modifier fst snd].
  split; [intros ((((-> & ->) & ->) & ->) & ->); auto|intros [= -> -> -> -> ->]; tauto].
Qed.
Lemma ckey_eqb_iff a b : ckey_eqb a b = true <-> cid a = cid b.
Proof.
  destruct a as [|f], b as [|g]; cbn [ckey_eqb cid]; try (split; [discriminate|congruence]); [tauto|].
  rewrite field_eqb_iff. split; congruence.
Qed.
Definition norm (v : value) : value := match v with VBool b => VInt (if b then 1 else 0)%Z | _ => v end.
Lemma value_eqb_iff a b : value_eqb a b = true <-> norm a = norm b.
Proof.
  destruct a as [s|x|x|l], b as [t|y|y|k]; cbn [value_eqb norm number_of]; try (split; [discriminate|congruence]);
    try rewrite str_eqb_eq; try rewrite Z.eqb_eq; try (split; congruence).
  destruct (list_eq_dec (list_eq_dec N.eq_dec) l k) as [->|H]; split; auto; try discriminate. intros [= ->]. now elim H.
Qed.

(** * Collecting *)
Section Collect.
  Context {A : Type}.
  Variable get : A -> str * str -> res value.

  (** what is known of one field *)
  Definition per (f : field) (entries : list A) (l : list (value * Z)) : Prop :=
    NoDup (map norm (map fst l)) /\
    (forall v n, In (v, n) l -> occurs get f v entries <> 0%nat /\ n = Z.of_nat (occurs get f v entries)) /\
    (forall v, occurs get f v entries <> 0%nat -> In v (map fst l)).
  Definition good (f : field) (entries : list A) (o : option cell) : Prop :=
    match o with
    | None => present_in get f entries = 0%nat
    | Some (Sum z) => count_of (f_type f) = TOTAL /\ present_in get f entries <> 0%nat /\ z = sum_of get f entries
    | Some (Per l) => count_of (f_type f) = COUNT /\ present_in get f entries <> 0%nat /\ per f entries l
    end.
  Definition total (entries : list A) (o : option cell) : Prop :=
    match o with
    | None => entries = []
    | Some (Sum z) => entries <> [] /\ z = Z.of_nat (length entries)
    | Some (Per _) => False
    end.

  Lemma present_snoc f entries e : present_in get f (entries ++ [e]) = (present_in get f entries + if present get f e then 1 else 0)%nat.
  Proof. unfold present_in. rewrite filter_app, app_length. cbn [filter]. destruct (present get f e); reflexivity. Qed.
  Lemma occurs_snoc f v entries e : occurs get f v (entries ++ [e]) = (occurs get f v entries + if has_value get f v e then 1 else 0)%nat.
  Proof. unfold occurs. rewrite filter_app, app_length. cbn [filter]. destruct (has_value get f v e); reflexivity. Qed.
  Lemma sum_snoc f entries e : sum_of get f (entries ++ [e]) = (sum_of get f entries + match get e (f_attribute f) with Ok (VInt z) => z | _ => 0 end)%Z.
  Proof. induction entries as [|x l IH]; cbn [app sum_of]; [lia|]. rewrite IH. lia. Qed.
  Lemma occurs_conforms f v entries : (forall e, In e entries -> get e (f_attribute f) = Err KeyErr \/
      exists v, get e (f_attribute f) = Ok v /\ conforms (f_type f) v = true) ->
    occurs get f v entries <> 0%nat -> conforms (f_type f) v = true.
  Proof.
    intros W O. unfold occurs in O. destruct (filter (has_value get f v) entries) as [|e l] eqn:E; [now elim O|].
    assert (I : In e (filter (has_value get f v) entries)) by (rewrite E; now left).
    apply filter_In in I. destruct I as [I H]. unfold has_value in H. destruct (W e I) as [G|(w & G & C)]; rewrite G in H; [discriminate|].
    destruct (value_dec v w) as [->|]; [auto|discriminate].
  Qed.
  Lemma norm_conforms t v w : conforms t v = true -> conforms t w = true -> norm v = norm w -> v = w.
  Proof.
    destruct t, v, w; cbn [conforms norm]; try discriminate; intros _ _ H; auto.
    destruct b, b0; auto; discriminate H.
  Qed.

  Lemma field_step f e c entries :
    (forall e', In e' (entries ++ [e]) -> get e' (f_attribute f) = Err KeyErr \/
      exists v, get e' (f_attribute f) = Ok v /\ conforms (f_type f) v = true) ->
    count_of (f_type f) <> UNCOUNTABLE ->
    good f entries (dict_get ckey_eqb (KField f) c) ->
    exists c', collect_field get e c f = Ok c' /\ good f (entries ++ [e]) (dict_get ckey_eqb (KField f) c') /\
      (forall k, cid k <> cid (KField f) -> dict_get ckey_eqb k c' = dict_get ckey_eqb k c) /\
      (NoDup (map cid (map fst c)) -> NoDup (map cid (map fst c'))) /\
      (forall k, In k (map fst c') -> k = KField f \/ In k (map fst c)).
  Proof.
    intros W U G. assert (We := W e ltac:(apply in_or_app; right; now left)).
    assert (W' : forall e', In e' entries -> get e' (f_attribute f) = Err KeyErr \/
      exists v, get e' (f_attribute f) = Ok v /\ conforms (f_type f) v = true) by (intros; apply W; apply in_or_app; auto).
    assert (SET : forall x, (forall k, cid k <> cid (KField f) ->
        dict_get ckey_eqb k (dict_set ckey_eqb (KField f) x c) = dict_get ckey_eqb k c) /\
      (NoDup (map cid (map fst c)) -> NoDup (map cid (map fst (dict_set ckey_eqb (KField f) x c)))) /\
      (forall k, In k (map fst (dict_set ckey_eqb (KField f) x c)) -> k = KField f \/ In k (map fst c))).
    { intros x. split; [|split].
      - intros k N. rewrite (dict_get_set _ _ ckey_eqb_iff). destruct (ckey_eqb k (KField f)) eqn:E; auto. apply ckey_eqb_iff in E. contradiction.
      - apply (dict_set_nodup _ _ ckey_eqb_iff).
      - intros k. apply dict_set_keys. }
    assert (SELF : forall x, dict_get ckey_eqb (KField f) (dict_set ckey_eqb (KField f) x c) = Some x).
    { intros x. rewrite (dict_get_set _ _ ckey_eqb_iff). replace (ckey_eqb (KField f) (KField f)) with true; auto. symmetry. now apply ckey_eqb_iff. }
    unfold collect_field. destruct We as [E|(v & E & C)].
    - rewrite E. exists c. split; [reflexivity|]. split; [|auto].
      assert (P : present get f e = false) by (unfold present; now rewrite E).
      unfold good in *. destruct (dict_get ckey_eqb (KField f) c) as [[z|l]|]; rewrite present_snoc, P.
      + rewrite sum_snoc, E. intuition lia.
      + destruct G as (G1 & G2 & G3 & G4 & G5). split; [auto|]. split; [lia|].
        assert (H : forall v, has_value get f v e = false) by (intros v; unfold has_value; now rewrite E).
        split; [auto|]. split; intros; rewrite occurs_snoc, H, Nat.add_0_r in *; auto.
      + lia.
    - rewrite E. assert (P : present get f e = true) by (unfold present; now rewrite E).
      destruct (count_of (f_type f)) eqn:CT; [| |now elim U].
      + (* COUNT *)
        assert (HV : forall w, has_value get f w e = if value_dec w v then true else false) by (intros w; unfold has_value; now rewrite E).
        assert (NEXT : forall l, (match dict_get ckey_eqb (KField f) c with Some (Per l') => l' = l | None => l = [] | _ => False end) ->
          good f (entries ++ [e]) (Some (Per (counter_add value_eqb v 1 l)))).
        { intros l Hl. cbn [good]. split; [auto|]. rewrite present_snoc, P. split; [lia|].
          assert (PL : per f entries l).
          { destruct (dict_get ckey_eqb (KField f) c) as [[z|l']|]; [destruct Hl|subst l'; apply G|].
            subst l. split; [constructor|]. split; [intros ? ? []|]. intros w O. elim O. cbn [good] in G. unfold occurs, present_in in *.
            destruct (filter (has_value get f w) entries) as [|y q] eqn:F; auto. exfalso.
            assert (I : In y (filter (has_value get f w) entries)) by (rewrite F; now left). apply filter_In in I. destruct I as [I H].
            unfold has_value in H. assert (PY : In y (filter (present get f) entries)).
            { apply filter_In. split; auto. unfold present. destruct (get y (f_attribute f)); auto; discriminate. }
            destruct (filter (present get f) entries); [destruct PY|discriminate G]. }
          destruct PL as (N & P1 & P2). unfold counter_add.
          assert (CONF : forall w, occurs get f w entries <> 0%nat -> norm w = norm v -> w = v).
          { intros w O. apply norm_conforms with (t := f_type f); auto. now apply (occurs_conforms f w entries W'). }
          assert (OLD : match dict_get value_eqb v l with Some m => m = Z.of_nat (occurs get f v entries) | None => occurs get f v entries = 0%nat end).
          { destruct (dict_get value_eqb v l) as [m|] eqn:D.
            - destruct (dict_get_in _ _ value_eqb_iff _ _ _ D) as (w & Ew & Iw). destruct (P1 w m Iw) as [O ->].
              now rewrite (CONF w O Ew).
            - apply (dict_get_none _ _ value_eqb_iff) in D. destruct (Nat.eq_dec (occurs get f v entries) 0) as [|O]; auto.
              elim D. apply in_map. now apply P2. }
          set (m := match dict_get value_eqb v l with Some m => (m + 1)%Z | None => 1%Z end).
          assert (M : m = Z.of_nat (occurs get f v (entries ++ [e]))).
          { rewrite occurs_snoc, HV. destruct (value_dec v v) as [_|X]; [|now elim X]. unfold m. destruct (dict_get value_eqb v l); lia. }
          clearbody m.
          assert (KEY : forall w, occurs get f w (entries ++ [e]) <> 0%nat -> norm w = norm v -> w = v).
          { intros w O. apply norm_conforms with (t := f_type f); auto. now apply (occurs_conforms f w (entries ++ [e]) W). }
          split; [now apply (dict_set_nodup _ _ value_eqb_iff)|]. split.
          - intros w n I.
            assert (D := dict_in_get _ _ value_eqb_iff _ _ _ (dict_set_nodup _ _ value_eqb_iff v m l N) I).
            rewrite (dict_get_set _ _ value_eqb_iff) in D. destruct (value_eqb w v) eqn:EQ.
            + injection D as <-. apply value_eqb_iff in EQ.
              assert (w = v).
              { assert (IK : In w (map fst (dict_set value_eqb v m l))) by (change w with (fst (w, m)); now apply in_map).
                apply dict_set_keys in IK. destruct IK as [->|IK]; auto. apply in_map_iff in IK. destruct IK as ([w' n'] & <- & IK).
                apply CONF; auto. now apply (P1 w' n'). }
              subst w. split; auto. rewrite occurs_snoc, HV. destruct (value_dec v v) as [_|X]; [lia|now elim X].
            + destruct (dict_get_in _ _ value_eqb_iff _ _ _ D) as (w' & Ew & Iw). destruct (P1 w' n Iw) as [O ->].
              assert (IK : In w (map fst (dict_set value_eqb v m l))) by (change w with (fst (w, Z.of_nat (occurs get f w' entries))); now apply in_map).
              apply dict_set_keys in IK. destruct IK as [->|IK]; [rewrite (proj2 (value_eqb_iff v v) eq_refl) in EQ; discriminate|].
              apply in_map_iff in IK. destruct IK as ([w2 n2] & F & IK). cbn [fst] in F. subst w2. destruct (P1 w n2 IK) as [O2 _].
              assert (w' = w) by (apply (norm_conforms (f_type f)); auto; eapply occurs_conforms; eauto). subst w'.
              rewrite occurs_snoc, HV. destruct (value_dec w v) as [->|X]; [rewrite (proj2 (value_eqb_iff v v) eq_refl) in EQ; discriminate|].
              rewrite Nat.add_0_r. auto.
          - intros w O. rewrite occurs_snoc, HV in O.
            assert (IDS : In (norm w) (map norm (map fst (dict_set value_eqb v m l)))).
            { apply (dict_set_ids _ _ value_eqb_iff). destruct (value_dec w v) as [->|X]; [now left|]. right. apply in_map. apply P2. lia. }
            apply in_map_iff in IDS. destruct IDS as (w' & Ew & Iw). assert (Iw' := Iw). apply dict_set_keys in Iw'.
            assert (w' = w); [|now subst w'].
            assert (Cw : conforms (f_type f) w = true).
            { destruct (value_dec w v) as [->|X]; auto. apply (occurs_conforms f w entries W'). lia. }
            apply (norm_conforms (f_type f)); auto. destruct Iw' as [->|Iw']; auto.
            apply in_map_iff in Iw'. destruct Iw' as ([w2 n2] & F & IK). cbn [fst] in F. subst w2.
            eapply occurs_conforms; eauto. now apply (P1 w' n2). }
        assert (NL : match v with VList _ => False | _ => True end).
        { destruct v; auto. destruct (f_type f); discriminate. }
        assert (STEP : forall l, match dict_get ckey_eqb (KField f) c with Some (Per l') => l' = l | None => l = [] | _ => False end ->
          let c' := dict_set ckey_eqb (KField f) (Per (counter_add value_eqb v 1 l)) c in
          good f (entries ++ [e]) (dict_get ckey_eqb (KField f) c') /\
          (forall k, cid k <> cid (KField f) -> dict_get ckey_eqb k c' = dict_get ckey_eqb k c) /\
          (NoDup (map cid (map fst c)) -> NoDup (map cid (map fst c'))) /\
          (forall k, In k (map fst c') -> k = KField f \/ In k (map fst c))).
        { intros l Hl c'. split; [unfold c'; rewrite SELF; now apply NEXT|]. apply SET. }
        destruct (dict_get ckey_eqb (KField f) c) as [[z|l]|].
        * destruct G as [G _]. congruence.
        * destruct v; try contradiction; (eexists; split; [reflexivity|]; apply (STEP l eq_refl)).
        * destruct v; try contradiction; (eexists; split; [reflexivity|]; apply (STEP [] eq_refl)).
      + (* TOTAL *)
        assert (exists n, v = VInt n) as [n ->] by (destruct (f_type f); try discriminate CT; destruct v; try discriminate C; eauto).
        cbn [number_of]. unfold add_sum. destruct (dict_get ckey_eqb (KField f) c) as [[z|l]|].
        * eexists. split; [reflexivity|]. split; [|apply SET]. rewrite SELF. cbn [good] in *.
          rewrite present_snoc, P, sum_snoc, E. intuition lia.
        * destruct G as [G _]. congruence.
        * eexists. split; [reflexivity|]. split; [|apply SET]. rewrite SELF. cbn [good] in *.
          rewrite present_snoc, P, sum_snoc, E. split; [auto|]. split; [lia|].
          assert (Z0 : sum_of get f entries = 0%Z); [|lia]. clear -G. unfold present_in in G.
          induction entries as [|x l IH]; auto. cbn [filter sum_of] in *. unfold present in G at 1.
          destruct (get x (f_attribute f)); [discriminate|]. now rewrite IH.
  Qed.
End Collect.
