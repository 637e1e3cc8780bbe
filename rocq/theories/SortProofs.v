(** Sorting: comparison is a total order where it is defined, and the result
    is the stable sorted permutation. *)
From Coq Require Import List NArith ZArith Bool Lia Permutation Sorting.Sorted.
From Verif Require Import Py TypeModel FieldModel SortLib SortModel SortSpec.
Import ListNotations.

(** * Induction over keys *)
Section Ind.
  Variable P : pv -> Prop.
  Hypothesis Hs : forall s, P (PStr s).
  Hypothesis Hi : forall z, P (PInt z).
  Hypothesis Hl : forall l, Forall P l -> P (PList l).
  Fixpoint pv_all (v : pv) : P v :=
    match v with
    | PStr s => Hs s
    | PInt z => Hi z
    | PList l => Hl l ((fix all (l : list pv) : Forall P l :=
        match l with [] => Forall_nil P | x :: t => Forall_cons x (pv_all x) (all t) end) l)
    end.
End Ind.

Fixpoint list_eqb (l k : list pv) : bool :=
  match l, k with
  | [], [] => true
  | x :: l', y :: k' => pv_eqb x y && list_eqb l' k'
  | _, _ => false
  end.
Lemma pv_eqb_list l k : pv_eqb (PList l) (PList k) = list_eqb l k.
Proof. reflexivity. Qed.
Fixpoint list_lt (l k : list pv) : res bool :=
  match l, k with
  | _, [] => Ok false
  | [], _ :: _ => Ok true
  | x :: l', y :: k' => if pv_eqb x y then list_lt l' k' else pv_lt x y
  end.
Lemma pv_lt_list l k : pv_lt (PList l) (PList k) = list_lt l k.
Proof. revert k; induction l as [|x l IH]; intros [|y k]; try reflexivity. Qed.

Lemma pv_eqb_eq : forall a b, pv_eqb a b = true <-> a = b.
Proof.
  induction a as [s|z|l IH] using pv_all; intros [t|y|k]; try (cbn; split; [discriminate|congruence]).
  - cbn. rewrite str_eqb_eq. split; congruence.
  - cbn. rewrite Z.eqb_eq. split; congruence.
  - rewrite pv_eqb_list. revert k; induction IH as [|x l Hx _ IH]; intros [|y k]; cbn; try (split; congruence).
    rewrite andb_true_iff, Hx, IH. split; [intros [-> E]; congruence|intros [= -> ->]; auto].
Qed.
Lemma pv_eqb_refl a : pv_eqb a a = true.
Proof. now apply pv_eqb_eq. Qed.
Lemma pv_eqb_neq a b : pv_eqb a b = false <-> a <> b.
Proof. rewrite <- pv_eqb_eq. destruct (pv_eqb a b); split; congruence. Qed.

(** * The order of texts *)
Lemma str_ltb_iff a b : str_ltb a b = true <-> StrBefore a b.
Proof.
  split.
  - revert b; induction a as [|x a IH]; intros [|y b]; cbn; try easy.
    + intros _. apply (strbefore_end [] y b).
    + destruct (N.eqb_spec x y) as [->|N].
      * intros H. apply IH in H. destruct H as [p x' y' a b L|p y' b].
        -- now apply (strbefore_char (y :: p)).
        -- apply (strbefore_end (y :: p)).
      * intros L. apply N.ltb_lt in L. now apply (strbefore_char []).
  - intros H. destruct H as [p x y a b L|p y b].
    + induction p as [|c p IH]; cbn.
      * destruct (N.eqb_spec x y); [lia|]. now apply N.ltb_lt.
      * now rewrite N.eqb_refl.
    + induction p as [|c p IH]; cbn; [reflexivity|]. now rewrite N.eqb_refl.
Qed.
Lemma str_ltb_irrefl a : str_ltb a a = false.
Proof. induction a as [|x a IH]; cbn; [reflexivity|]. now rewrite N.eqb_refl. Qed.
Lemma str_ltb_asym a b : str_ltb a b = true -> str_ltb b a = false.
Proof.
  revert b; induction a as [|x a IH]; intros [|y b]; cbn; try easy.
  rewrite (N.eqb_sym y x). destruct (N.eqb_spec x y) as [E|N]; auto.
  rewrite N.ltb_lt, N.ltb_ge. lia.
Qed.
Lemma str_ltb_trans a b c : str_ltb a b = true -> str_ltb b c = true -> str_ltb a c = true.
Proof.
  revert b c; induction a as [|x a IH]; intros [|y b] [|z c]; cbn; try easy.
  destruct (N.eqb_spec x y), (N.eqb_spec y z), (N.eqb_spec x z); subst; try congruence;
    rewrite ?N.ltb_lt; try lia; eauto.
Qed.
Lemma str_ltb_total a b : str_ltb a b = true \/ a = b \/ str_ltb b a = true.
Proof.
  revert b; induction a as [|x a IH]; intros [|y b]; cbn; auto.
  rewrite (N.eqb_sym y x). destruct (N.eqb_spec x y) as [->|N].
  - destruct (IH b) as [H|[->|H]]; auto.
  - rewrite !N.ltb_lt. lia.
Qed.

(** * A total order that extends the comparison of keys *)
Definition tag (v : pv) : Z := match v with PInt _ => 0 | PStr _ => 1 | PList _ => 2 end.
Fixpoint less (a b : pv) : bool :=
  match a, b with
  | PStr s, PStr t => str_ltb s t
  | PInt x, PInt y => Z.ltb x y
  | PList l, PList k =>
      (fix lt (l k : list pv) : bool :=
         match l, k with
         | _, [] => false
         | [], _ :: _ => true
         | x :: l', y :: k' => if pv_eqb x y then lt l' k' else less x y
         end) l k
  | _, _ => Z.ltb (tag a) (tag b)
  end.
Fixpoint list_less (l k : list pv) : bool :=
  match l, k with
  | _, [] => false
  | [], _ :: _ => true
  | x :: l', y :: k' => if pv_eqb x y then list_less l' k' else less x y
  end.
Lemma less_list l k : less (PList l) (PList k) = list_less l k.
Proof. revert k; induction l as [|x l IH]; intros [|y k]; reflexivity. Qed.

Lemma lt_less : forall a b r, pv_lt a b = Ok r -> less a b = r.
Proof.
  induction a as [s|z|l IH] using pv_all; intros [t|y|k] r; try (cbn; congruence).
  rewrite pv_lt_list, less_list. revert k; induction IH as [|x l Hx _ IH]; intros [|y k]; cbn; try congruence.
  destruct (pv_eqb x y); auto.
Qed.
Lemma less_total : forall a b, less a b = true \/ a = b \/ less b a = true.
Proof.
  induction a as [s|z|l IH] using pv_all; intros [t|y|k]; try (cbn; auto).
  - destruct (str_ltb_total s t) as [H|[->|H]]; auto.
  - destruct (Z.ltb_spec z y), (Z.ltb_spec y z); auto. right; left; f_equal; lia.
  - fold (list_less l k). fold (list_less k l).
    revert k; induction IH as [|x l Hx _ IH]; intros [|y k]; cbn; auto.
    destruct (pv_eqb x y) eqn:E.
    + apply pv_eqb_eq in E as ->. rewrite pv_eqb_refl. destruct (IH k) as [H|[[= ->]|H]]; auto.
    + assert (E' : pv_eqb y x = false) by (apply pv_eqb_neq; apply pv_eqb_neq in E; congruence).
      rewrite E'. destruct (Hx y) as [H|[->|H]]; auto. rewrite pv_eqb_refl in E. discriminate.
Qed.
Lemma less_asym : forall a b, less a b = true -> less b a = false.
Proof.
  induction a as [s|z|l IH] using pv_all; intros [t|y|k]; try (cbn; congruence).
  - cbn. apply str_ltb_asym.
  - cbn. rewrite Z.ltb_lt, Z.ltb_ge. lia.
  - rewrite !less_list. revert k; induction IH as [|x l Hx _ IH]; intros [|y k]; cbn; try congruence.
    destruct (pv_eqb x y) eqn:E.
    + apply pv_eqb_eq in E as ->. rewrite pv_eqb_refl. apply IH.
    + assert (E' : pv_eqb y x = false) by (apply pv_eqb_neq; apply pv_eqb_neq in E; congruence).
      rewrite E'. apply Hx.
Qed.
Lemma less_irrefl a : less a a = false.
Proof. destruct (less a a) eqn:E; [|reflexivity]. now rewrite (less_asym _ _ E) in E. Qed.
Lemma less_trans : forall a b c, less a b = true -> less b c = true -> less a c = true.
Proof.
  induction a as [s|z|l IH] using pv_all; intros [t|y|k] [u|x|m]; try (cbn; congruence).
  - cbn. apply str_ltb_trans.
  - cbn. rewrite !Z.ltb_lt. lia.
  - rewrite !less_list. revert k m; induction IH as [|a l Ha _ IH]; intros [|b k] [|c m]; cbn; try congruence.
    destruct (pv_eqb a b) eqn:E1, (pv_eqb b c) eqn:E2.
    + apply pv_eqb_eq in E1 as ->, E2 as ->. rewrite pv_eqb_refl. apply IH.
    + apply pv_eqb_eq in E1 as ->. now rewrite E2.
    + apply pv_eqb_eq in E2 as ->. now rewrite E1.
    + intros H1 H2. destruct (pv_eqb a c) eqn:E3; [|eauto].
      apply pv_eqb_eq in E3 as ->. rewrite (less_asym _ _ H1) in H2. discriminate.
Qed.

(** * Keys in order *)
Lemma before_less a b : Before a b -> less a b = true.
Proof.
  induction 1 as [a b H|a b H|p x y a b _ IH|p y b].
  - now apply str_ltb_iff.
  - now apply Z.ltb_lt.
  - rewrite less_list. induction p as [|c p IHp]; cbn.
    + destruct (pv_eqb x y) eqn:E; [|exact IH]. apply pv_eqb_eq in E as ->. now rewrite less_irrefl in IH.
    + now rewrite pv_eqb_refl.
  - rewrite less_list. induction p as [|c p IHp]; cbn; [reflexivity|]. now rewrite pv_eqb_refl.
Qed.
Lemma before_cons y l k : Before (PList l) (PList k) -> Before (PList (y :: l)) (PList (y :: k)).
Proof.
  intros H. remember (PList l) as u. remember (PList k) as v.
  destruct H as [| |p x z a b B|p z b]; try discriminate; injection Hequ as <-; injection Heqv as <-.
  - now apply (before_item (y :: p)).
  - apply (before_end (y :: p)).
Qed.
Lemma lt_before : forall a b, pv_lt a b = Ok true -> Before a b.
Proof.
  induction a as [s|z|l IH] using pv_all; intros [t|y|k]; try (cbn; congruence).
  - cbn. intros [= H]. now constructor; apply str_ltb_iff.
  - cbn. intros [= H]. now constructor; apply Z.ltb_lt.
  - rewrite pv_lt_list. revert k; induction IH as [|x l Hx _ IH]; intros [|y k]; cbn; try congruence.
    + intros _. apply (before_end []).
    + destruct (pv_eqb x y) eqn:E.
      * apply pv_eqb_eq in E as ->. intros H. specialize (IH _ H).
        now apply before_cons.
      * intros H. apply (before_item []). auto.
Qed.
Lemma lt_false a b : pv_lt a b = Ok false -> is_ok (pv_lt b a) = true -> Before b a \/ a = b.
Proof.
  intros H H'. destruct (pv_lt b a) as [[]|e] eqn:E; [left; now apply lt_before| |discriminate].
  right. apply lt_less in H, E. destruct (less_total a b) as [K|[K|K]]; congruence.
Qed.

(** * Sorting *)
Definition leb_of {A} (a b : pv * A) : bool := negb (less (fst b) (fst a)).
Lemma leb_total {A} (a b : pv * A) : leb_of a b = true \/ leb_of b a = true.
Proof.
  unfold leb_of. destruct (less (fst b) (fst a)) eqn:E; [|now left]. right. now rewrite (less_asym _ _ E).
Qed.
Lemma leb_trans {A} (a b c : pv * A) : leb_of a b = true -> leb_of b c = true -> leb_of a c = true.
Proof.
  unfold leb_of. rewrite !negb_true_iff. intros H1 H2.
  destruct (less (fst c) (fst a)) eqn:E; [|reflexivity].
  destruct (less_total (fst b) (fst a)) as [K|[K|K]]; [congruence| |].
  - rewrite K in H2. congruence.
  - rewrite (less_trans _ _ _ E K) in H2. discriminate.
Qed.
Lemma leb_equiv {A} (a b : pv * A) : equivb leb_of a b = true <-> fst a = fst b.
Proof.
  unfold equivb, leb_of. rewrite andb_true_iff, !negb_true_iff. split.
  - intros [H1 H2]. destruct (less_total (fst a) (fst b)) as [K|[K|K]]; congruence.
  - intros ->. now rewrite less_irrefl.
Qed.

Lemma insert_ext {A} (f g : A -> A -> bool) x l : (forall y, In y l -> f x y = g x y) -> insert f x l = insert g x l.
Proof.
  induction l as [|y l IH]; intros H; [reflexivity|]. cbn. rewrite (H y) by now left.
  destruct (g x y); [reflexivity|]. f_equal. apply IH. intros; apply H; now right.
Qed.
Lemma isort_ext {A} (f g : A -> A -> bool) l : (forall x y, In x l -> In y l -> f x y = g x y) -> isort f l = isort g l.
Proof.
  induction l as [|x l IH]; intros H; [reflexivity|]. cbn. rewrite IH.
  - apply insert_ext. intros y Hy. apply isort_in in Hy. apply H; [now left|now right].
  - intros; apply H; now right.
Qed.

Lemma pv_lt_refl : forall a, pv_lt a a = Ok false.
Proof.
  induction a as [s|z|l IH] using pv_all.
  - cbn. now rewrite str_ltb_irrefl.
  - cbn. now rewrite Z.ltb_irrefl.
  - rewrite pv_lt_list. induction IH as [|x l _ _ IH]; cbn; [reflexivity|]. now rewrite pv_eqb_refl.
Qed.
Lemma comparable_refl a : comparable a a = true.
Proof. unfold comparable. now rewrite pv_lt_refl. Qed.
Lemma comparable_sym a b : comparable a b = comparable b a.
Proof. apply andb_comm. Qed.
Lemma all_comparable_iff l : all_comparable l = true <-> forall a b, In a l -> In b l -> comparable a b = true.
Proof.
  induction l as [|x l IH]; cbn; [easy|]. rewrite andb_true_iff, IH, forallb_forall. split.
  - intros [H1 H2] a b [<-|Ha] [<-|Hb]; auto using comparable_refl. rewrite comparable_sym. auto.
  - auto.
Qed.
Lemma not_after_leb {A} (a b : pv * A) : comparable (fst a) (fst b) = true -> not_after a b = leb_of a b.
Proof.
  unfold comparable, not_after, leb_of. rewrite andb_true_iff. intros [_ H].
  destruct (pv_lt (fst b) (fst a)) as [r|] eqn:E; [|discriminate]. now rewrite (lt_less _ _ _ E).
Qed.

Lemma mapr_ok {A B} (f : A -> res B) l ks d : mapr f l = Ok ks ->
  let k a := match f a with Ok v => v | Err _ => d end in
  ks = map k l /\ forall a, In a l -> f a = Ok (k a).
Proof.
  revert ks; induction l as [|x l IH]; cbn; intros ks.
  - intros [= <-]. easy.
  - destruct (f x) as [y|] eqn:E; [|discriminate]. cbn. destruct (mapr f l) as [ys|]; [|discriminate].
    intros [= <-]. destruct (IH ys eq_refl) as [-> H]. split; [now rewrite ?E|].
    intros a [<-|Ha]; [now rewrite E|auto].
Qed.
Lemma mapr_total {A B} (f : A -> res B) (k : A -> B) l : (forall a, In a l -> f a = Ok (k a)) -> mapr f l = Ok (map k l).
Proof.
  induction l as [|x l IH]; intros H; [reflexivity|]. cbn. rewrite (H x) by now left. cbn.
  rewrite IH by (intros; apply H; now right). reflexivity.
Qed.
Lemma combine_map {A B} (k : A -> B) l : combine (map k l) l = map (fun a => (k a, a)) l.
Proof. induction l as [|x l IH]; cbn; congruence. Qed.

Lemma SS_map {A B} (R : A -> A -> Prop) (S : B -> B -> Prop) (f : A -> B) l :
  (forall a b, In a l -> In b l -> R a b -> S (f a) (f b)) -> StronglySorted R l -> StronglySorted S (map f l).
Proof.
  intros H. induction 1 as [|x l _ IH F]; cbn; constructor.
  - apply IH. intros; apply H; auto; now right.
  - apply Forall_map. rewrite Forall_forall in *. intros y Hy. apply H; auto; [now left|now right].
Qed.
Lemma SS_rev {A} (R : A -> A -> Prop) l : StronglySorted R l -> StronglySorted (fun a b => R b a) (rev l).
Proof.
  induction 1 as [|x l _ IH F]; cbn; [constructor|].
  assert (G : Forall (fun y => R x y) (rev l)) by now apply Forall_rev.
  revert IH G. generalize (rev l). induction l0 as [|y t IHt]; intros S G; cbn; [repeat constructor|].
  apply StronglySorted_inv in S as [S Fy]. inversion G; subst. constructor; auto.
  apply Forall_app. split; [exact Fy|]. now constructor.
Qed.
Lemma filter_map {A B} (p : B -> bool) (f : A -> B) l : filter p (map f l) = map f (filter (fun a => p (f a)) l).
Proof. induction l as [|x l IH]; cbn; [reflexivity|]. destruct (p (f x)); cbn; congruence. Qed.
Lemma filter_rev {A} (p : A -> bool) l : filter p (rev l) = rev (filter p l).
Proof.
  induction l as [|x l IH]; cbn; [reflexivity|]. rewrite filter_app, IH. cbn.
  destruct (p x); cbn; [reflexivity|now rewrite app_nil_r].
Qed.
Lemma filter_in {A} (p q : A -> bool) l : (forall x, In x l -> p x = true -> q x = true) ->
  filter p l = filter p (filter q l).
Proof.
  induction l as [|x l IH]; intros H; [reflexivity|]. cbn.
  rewrite IH by (intros; apply H; auto; now right).
  destruct (q x) eqn:Q; cbn; destruct (p x) eqn:P; try reflexivity.
  rewrite (H x (or_introl eq_refl) P) in Q. discriminate.
Qed.

Section Stable.
  Context {A : Type} (k : A -> pv).
  Let pair (a : A) := (k a, a).
  Lemma sorted_pairs l out : out = isort leb_of (map pair l) ->
    Permutation l (map snd out) /\ StronglySorted (le leb_of) out /\ (forall x, In x out -> exists a, In a l /\ x = pair a) /\
    (forall p : A -> bool, (forall a b, In a l -> In b l -> p a = true -> p b = true -> k a = k b) ->
      filter p (map snd out) = filter p l).
  Proof.
    intros ->. assert (P := isort_perm leb_of (map pair l)). repeat split.
    - apply (Permutation_map snd) in P. rewrite map_map in P. cbn in P. now rewrite map_id in P.
    - apply isort_sorted; [apply leb_total|apply leb_trans].
    - intros x Hx. apply isort_in, in_map_iff in Hx as (a & <- & Ha). eauto.
    - intros p Hp. rewrite filter_map.
      assert (N : forall l' : list (pv * A), (forall x, In x l' -> exists a, In a l /\ x = pair a) ->
        filter (fun x => p (snd x)) l' = [] \/ exists a, In a l /\ p a = true /\
          filter (fun x => p (snd x)) l' = filter (fun x => p (snd x)) (filter (equivb leb_of (pair a)) l')).
      { intros l' Hl. destruct (filter (fun x => p (snd x)) l') as [|x t] eqn:E; [now left|right].
        assert (In x (filter (fun x => p (snd x)) l')) as Hx by (rewrite E; now left).
        apply filter_In in Hx as [Hx Px]. destruct (Hl x Hx) as (a & Ha & ->). exists a. split; [exact Ha|split; [exact Px|]].
        rewrite <- E. apply filter_in. intros y Hy Py. destruct (Hl y Hy) as (b & Hb & ->). apply leb_equiv. cbn. auto. }
      assert (E : filter (fun x => p (snd x)) (isort leb_of (map pair l)) = filter (fun x => p (snd x)) (map pair l)).
      { destruct (N (map pair l)) as [E|(a & Ha & Pa & E)].
        - intros x Hx. apply in_map_iff in Hx as (a & <- & Ha). eauto.
        - rewrite E. destruct (filter (fun x => p (snd x)) (isort leb_of (map pair l))) as [|x t] eqn:F; [reflexivity|].
          assert (In x (filter (fun x => p (snd x)) (isort leb_of (map pair l)))) as Hx by (rewrite F; now left).
          apply filter_In in Hx as [Hx Px]. apply (proj1 (isort_in leb_of _ _)) in Hx.
          assert (In x (filter (fun x => p (snd x)) (map pair l))) as K by (apply filter_In; split; [exact Hx|exact Px]).
          rewrite E in K. destruct K.
        - rewrite E. rewrite <- (isort_stable leb_of leb_total leb_trans (pair a) (map pair l)).
          apply filter_in. intros y Hy Py. apply isort_in, in_map_iff in Hy as (b & <- & Hb).
          apply leb_equiv. cbn. auto. }
      rewrite E, filter_map, map_map. cbn. now rewrite map_id.
  Qed.
End Stable.

Lemma list_sort_spec {A} (key : A -> res pv) reverse l out : list_sort key reverse l = Ok out ->
  exists k, (forall a, In a l -> key a = Ok (k a)) /\ Sorted_by k reverse l out.
Proof.
  unfold list_sort. destruct (mapr key l) as [ks|] eqn:M; [|discriminate]. cbn [bindr].
  destruct (mapr_ok key l ks (PInt 0) M) as [-> K]. set (k a := match key a with Ok v => v | Err _ => PInt 0 end) in *.
  destruct (all_comparable (map k l)) eqn:C; [|discriminate]. intros [= <-]. exists k. split; [exact K|].
  rewrite all_comparable_iff in C. rewrite combine_map.
  assert (C' : forall a b, In a l -> In b l -> comparable (k a) (k b) = true) by (intros; apply C; now apply in_map).
  assert (B : forall a b, In a l -> In b l -> less (k b) (k a) = false -> Before (k a) (k b) \/ k a = k b).
  { intros a b Ha Hb L. specialize (C' a b Ha Hb). unfold comparable in C'. apply andb_true_iff in C' as [C1 C2].
    destruct (pv_lt (k b) (k a)) as [r|] eqn:E; [|discriminate]. assert (r = false) as -> by (rewrite <- L; symmetry; now apply lt_less).
    destruct (lt_false _ _ E C1); auto. }
  destruct reverse.
  - rewrite <- map_rev. rewrite (isort_ext not_after leb_of).
    2: { intros x y Hx Hy. apply in_map_iff in Hx as (a & <- & Ha), Hy as (b & <- & Hb). apply in_rev in Ha, Hb.
         apply not_after_leb. cbn. auto. }
    destruct (sorted_pairs k (rev l) _ eq_refl) as (P & S & I & F). rewrite map_rev. split; [|split].
    + rewrite <- Permutation_rev. rewrite <- P. apply Permutation_rev.
    + rewrite <- map_rev. eapply SS_map; [|apply SS_rev, S]. intros x y Hx Hy L. cbn in L.
      apply in_rev in Hx, Hy. destruct (I x Hx) as (a & Ha & ->), (I y Hy) as (b & Hb & ->). apply in_rev in Ha, Hb.
      unfold le, leb_of in L. cbn in *. apply negb_true_iff in L. destruct (B b a Hb Ha L); auto.
    + intros p Hp. rewrite filter_rev, F, filter_rev, rev_involutive; [reflexivity|].
      intros a b Ha Hb. apply in_rev in Ha, Hb. auto.
  - rewrite (isort_ext not_after leb_of).
    2: { intros x y Hx Hy. apply in_map_iff in Hx as (a & <- & Ha), Hy as (b & <- & Hb). apply not_after_leb. cbn. auto. }
    destruct (sorted_pairs k l _ eq_refl) as (P & S & I & F). split; [exact P|split; [|exact F]].
    eapply SS_map; [|exact S]. intros x y Hx Hy L.
    destruct (I x Hx) as (a & Ha & ->), (I y Hy) as (b & Hb & ->).
    unfold le, leb_of in L. cbn in *. apply negb_true_iff in L. auto.
Qed.

(** The result is determined by this. *)
Lemma before_asym a b : Before a b -> ~ Before b a.
Proof. intros H1 H2. apply before_less in H1, H2. rewrite (less_asym _ _ H1) in H2. discriminate. Qed.
Lemma before_irrefl a : ~ Before a a.
Proof. intros H. exact (before_asym _ _ H H). Qed.
Lemma sorted_unique {A} (k : A -> pv) reverse l l' out out' :
  Sorted_by k reverse l out -> Sorted_by k reverse l' out' -> Permutation l l' ->
  (forall a b, In a l -> In b l -> k a = k b -> a = b) -> out = out'.
Proof.
  intros (P & S & _) (P' & S' & _) PP D.
  assert (Q : Permutation out out') by (rewrite <- P, PP; exact P').
  assert (DO : forall a b, In a out -> In b out -> k a = k b -> a = b).
  { intros a b Ha Hb. apply D; (eapply Permutation_in; [symmetry; exact P|]; assumption). }
  clear P P' PP D l l'. revert out' S' Q. induction out as [|x out IH]; intros [|y out'] S' Q.
  - reflexivity.
  - apply Permutation_nil in Q. discriminate.
  - symmetry in Q. apply Permutation_nil in Q. discriminate.
  - apply StronglySorted_inv in S as [S F], S' as [S' F']. rewrite Forall_forall in F, F'.
    assert (E : x = y).
    { assert (Hy : In y (x :: out)) by (eapply Permutation_in; [symmetry; exact Q|now left]).
      assert (Hx : In x (y :: out')) by (eapply Permutation_in; [exact Q|now left]).
      destruct Hy as [E|Hy]; [exact E|]. destruct Hx as [E|Hx]; [now symmetry|].
      apply DO; [now left|now right|]. specialize (F y Hy). specialize (F' x Hx).
      destruct reverse; destruct F as [F|F]; auto; destruct F' as [F'|F']; auto; exfalso; exact (before_asym _ _ F F'). }
    subst y. f_equal. apply IH; auto.
    + intros a b Ha Hb. apply DO; now right.
    + now apply Permutation_cons_inv in Q.
Qed.

(** Sorting succeeds if keys can be computed and compared. *)
Lemma list_sort_ok {A} (key : A -> res pv) (k : A -> pv) reverse l : (forall a, In a l -> key a = Ok (k a)) ->
  (forall a b, In a l -> In b l -> comparable (k a) (k b) = true) -> exists out, list_sort key reverse l = Ok out.
Proof.
  intros K C. unfold list_sort. rewrite (mapr_total key k l K). cbn [bindr].
  replace (all_comparable (map k l)) with true; [eauto|]. symmetry. apply all_comparable_iff.
  intros x y Hx Hy. apply in_map_iff in Hx as (a & <- & Ha), Hy as (b & <- & Hb). auto.
Qed.
