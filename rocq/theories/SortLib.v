(** Stable sorting by a total preorder, with its characterisation. *)
From Coq Require Import List Bool Arith Lia Permutation Sorting.Sorted.
Import ListNotations.

Section Sort.
  Context {A : Type} (leb : A -> A -> bool).

  (** [list.sort] is guaranteed to be stable; its result is the unique stable
      sorted permutation (see [stable_sort_unique]), so the algorithm used to
      compute it is irrelevant. *)
  Fixpoint insert (x : A) (l : list A) : list A :=
    match l with
    | [] => [x]
    | y :: t => if leb x y then x :: l else y :: insert x t
    end.
  Fixpoint isort (l : list A) : list A :=
    match l with
    | [] => []
    | x :: t => insert x (isort t)
    end.

  Lemma insert_perm x l : Permutation (x :: l) (insert x l).
  Proof.
    induction l as [|y t IH]; cbn; [reflexivity|].
    destruct (leb x y); [reflexivity|].
    rewrite perm_swap. now constructor.
  Qed.
  Lemma isort_perm l : Permutation l (isort l).
  Proof.
    induction l as [|x t IH]; cbn; [constructor|].
    rewrite IH at 1. apply insert_perm.
  Qed.
  Lemma isort_length l : length (isort l) = length l.
  Proof. symmetry. apply Permutation_length, isort_perm. Qed.
  Lemma isort_in x l : In x (isort l) <-> In x l.
  Proof.
    split; apply Permutation_in; [symmetry|]; apply isort_perm.
  Qed.

  Definition le (a b : A) : Prop := leb a b = true.

  Hypothesis total : forall a b, leb a b = true \/ leb b a = true.
  Hypothesis trans : forall a b c, leb a b = true -> leb b c = true -> leb a c = true.

  Lemma insert_sorted x l : StronglySorted le l -> StronglySorted le (insert x l).
  Proof.
    induction l as [|y t IH]; intros H; cbn.
    - repeat constructor.
    - apply StronglySorted_inv in H as [Ht Hy].
      destruct (leb x y) eqn:E.
      + constructor; [constructor; assumption|]. constructor; [exact E|].
        eapply Forall_impl; [|exact Hy]. intros z Hz. eapply trans; eauto.
      + constructor; [now apply IH|].
        assert (P : Permutation (x :: t) (insert x t)) by apply insert_perm.
        rewrite <- P. constructor; [|exact Hy].
        destruct (total x y); [congruence|assumption].
  Qed.
  Lemma isort_sorted l : StronglySorted le (isort l).
  Proof.
    induction l as [|x t IH]; cbn; [constructor|]. now apply insert_sorted.
  Qed.

  (** Elements equivalent to [a] in the preorder. *)
  Definition equivb (a b : A) : bool := leb a b && leb b a.

  Lemma insert_filter a x l : StronglySorted le l ->
    filter (equivb a) (insert x l) = filter (equivb a) (x :: l).
  Proof.
    induction l as [|y t IH]; intros H; [reflexivity|].
    apply StronglySorted_inv in H as [Ht Hy]. specialize (IH Ht).
    cbn [insert]. destruct (leb x y) eqn:E; [reflexivity|].
    cbn [filter] in *. rewrite IH.
    destruct (equivb a y) eqn:Ey, (equivb a x) eqn:Ex; try reflexivity.
    exfalso. unfold equivb in *. apply andb_true_iff in Ey as [E1 E2], Ex as [E3 E4].
    assert (leb x y = true) by (eapply trans; eauto). congruence.
  Qed.
  (** Stability: equivalent elements keep their relative order. *)
  Lemma isort_stable a l : filter (equivb a) (isort l) = filter (equivb a) l.
  Proof.
    induction l as [|x t IH]; [reflexivity|]. cbn [isort].
    rewrite insert_filter by apply isort_sorted. cbn [filter].
    now rewrite IH.
  Qed.
End Sort.

(** A sorted list is determined by its classes: uniqueness of the stable
    sorted permutation. *)
Section Unique.
  Context {A : Type} (leb : A -> A -> bool).
  Hypothesis total : forall a b, leb a b = true \/ leb b a = true.
  Hypothesis trans : forall a b c, leb a b = true -> leb b c = true -> leb a c = true.
  Let refl a : leb a a = true.
  Proof. destruct (total a a); assumption. Qed.

  Lemma stable_sort_unique l1 l2 :
    StronglySorted (le leb) l1 -> StronglySorted (le leb) l2 ->
    (forall a, filter (equivb leb a) l1 = filter (equivb leb a) l2) -> l1 = l2.
  Proof.
    revert l2; induction l1 as [|x l1 IH]; intros l2 S1 S2 F.
    - destruct l2 as [|y l2]; [reflexivity|]. specialize (F y). cbn in F.
      unfold equivb in F. rewrite refl in F. discriminate.
    - destruct l2 as [|y l2].
      + specialize (F x). cbn in F. unfold equivb in F. rewrite refl in F. discriminate.
      + apply StronglySorted_inv in S1 as [S1 H1]. apply StronglySorted_inv in S2 as [S2 H2].
        assert (Hin1 : In x (y :: l2)).
        { assert (K : In x (filter (equivb leb x) (y :: l2))).
          { rewrite <- F. cbn. unfold equivb at 1. rewrite refl. now left. }
          apply filter_In in K. tauto. }
        assert (Hin2 : In y (x :: l1)).
        { assert (K : In y (filter (equivb leb y) (x :: l1))).
          { rewrite F. cbn. unfold equivb at 1. rewrite refl. now left. }
          apply filter_In in K. tauto. }
        rewrite Forall_forall in H1, H2.
        assert (Lxy : leb x y = true).
        { destruct Hin2 as [->|K]; [apply refl|]. now apply H1. }
        assert (Lyx : leb y x = true).
        { destruct Hin1 as [->|K]; [apply refl|]. now apply H2. }
        assert (E : x = y).
        { specialize (F x). cbn in F.
          replace (equivb leb x x) with true in F by (unfold equivb; now rewrite refl).
          replace (equivb leb x y) with true in F by (unfold equivb; now rewrite Lxy, Lyx).
          now injection F. }
        subst y. f_equal. apply IH; [assumption|assumption|].
        intros a. specialize (F a). cbn in F. destruct (equivb leb a x); [now injection F|assumption].
  Qed.

  (** If no two elements are equivalent, any two sorted permutations agree. *)
  Lemma sorted_perm_unique l1 l2 :
    StronglySorted (le leb) l1 -> StronglySorted (le leb) l2 -> Permutation l1 l2 ->
    (forall a b, In a l1 -> In b l1 -> equivb leb a b = true -> a = b) ->
    l1 = l2.
  Proof.
    revert l2; induction l1 as [|x l1 IH]; intros l2 S1 S2 P D.
    - apply Permutation_nil in P. now subst.
    - destruct l2 as [|y l2]; [symmetry in P; apply Permutation_nil in P; discriminate|].
      apply StronglySorted_inv in S1 as [S1 H1]. apply StronglySorted_inv in S2 as [S2 H2].
      rewrite Forall_forall in H1, H2.
      assert (Hy : In y (x :: l1)) by (eapply Permutation_in; [symmetry; exact P|now left]).
      assert (Hx : In x (y :: l2)) by (eapply Permutation_in; [exact P|now left]).
      assert (E : x = y).
      { apply D; [now left|assumption|]. unfold equivb. apply andb_true_iff. split.
        - destruct Hy as [->|K]; [apply refl|]. now apply H1.
        - destruct Hx as [->|K]; [apply refl|]. now apply H2. }
      subst y. f_equal. apply IH; auto.
      + now apply Permutation_cons_inv in P.
      + intros a b Ha Hb. apply D; now right.
  Qed.
End Unique.

(** Lexicographic order and sorting by a key are handled by instantiating
    [leb]; sorting by an integer key: *)
From Coq Require Import ZArith.
Definition keyleb {A} (key : A -> Z) (a b : A) : bool := (key a <=? key b)%Z.
Lemma keyleb_total {A} (key : A -> Z) a b : keyleb key a b = true \/ keyleb key b a = true.
Proof. unfold keyleb. rewrite !Z.leb_le. lia. Qed.
Lemma keyleb_trans {A} (key : A -> Z) a b c :
  keyleb key a b = true -> keyleb key b c = true -> keyleb key a c = true.
Proof. unfold keyleb. rewrite !Z.leb_le. lia. Qed.
Definition sort_by {A} (key : A -> Z) : list A -> list A := isort (keyleb key).
