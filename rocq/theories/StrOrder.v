(** Comparison of Python strings and sorting in reverse. *)
From Coq Require Import List NArith ZArith Bool Lia Permutation Sorting.Sorted.
From Verif Require Import Py SortLib.
Import ListNotations.

(** [a <= b] for strings: lexicographic by code points. *)
Fixpoint str_leb (a b : str) : bool :=
  match a, b with
  | [], _ => true
  | _ :: _, [] => false
  | x :: a', y :: b' => if (x <? y)%N then true else if (y <? x)%N then false else str_leb a' b'
  end.

Lemma str_leb_refl a : str_leb a a = true.
Proof. induction a as [|x a IH]; cbn; [reflexivity|]. now rewrite N.ltb_irrefl. Qed.
Lemma str_leb_total a b : str_leb a b = true \/ str_leb b a = true.
Proof.
  revert b; induction a as [|x a IH]; intros [|y b]; cbn; auto.
  destruct (N.ltb_spec x y), (N.ltb_spec y x); auto; lia.
Qed.
Lemma str_leb_antisym a b : str_leb a b = true -> str_leb b a = true -> a = b.
Proof.
  revert b; induction a as [|x a IH]; intros [|y b]; cbn; try easy.
  destruct (N.ltb_spec x y), (N.ltb_spec y x); try easy; try lia.
  intros H1 H2. rewrite (IH b H1 H2). f_equal. lia.
Qed.
Lemma str_leb_trans a b c : str_leb a b = true -> str_leb b c = true -> str_leb a c = true.
Proof.
  revert b c; induction a as [|x a IH]; intros [|y b] [|z c]; cbn; try easy.
  destruct (N.ltb_spec x y), (N.ltb_spec y z), (N.ltb_spec y x), (N.ltb_spec z y),
    (N.ltb_spec x z), (N.ltb_spec z x); try easy; try lia.
  intros H8 H9. exact (IH b c H8 H9).
Qed.
Lemma str_leb_prefix a b p : str_leb a b = true ->
  starts_with a p = true -> starts_with b p = true -> length a <= length b.
Proof.
  revert b p; induction a as [|x a IH]; intros [|y b] [|z p]; cbn; try easy; try lia.
  rewrite !andb_true_iff, !N.eqb_eq. intros H [-> Ha] [-> Hb].
  rewrite !N.ltb_irrefl in H. specialize (IH b p H Ha Hb). lia.
Qed.

(** list.sort(reverse=True): CPython reverses, sorts stably, reverses. *)
Definition sort_reverse {A} (leb : A -> A -> bool) (l : list A) : list A :=
  rev (isort leb (rev l)).

Lemma sort_reverse_perm {A} (leb : A -> A -> bool) l : Permutation l (sort_reverse leb l).
Proof.
  unfold sort_reverse. rewrite <- Permutation_rev, <- isort_perm. apply Permutation_rev.
Qed.

Lemma StronglySorted_snoc {A} (R : A -> A -> Prop) l x :
  StronglySorted R l -> Forall (fun y => R y x) l -> StronglySorted R (l ++ [x]).
Proof.
  induction l as [|y l IH]; intros S F; cbn; [repeat constructor|].
  apply StronglySorted_inv in S as [S Fy]. inversion F; subst.
  constructor; [now apply IH|]. apply Forall_app. split; [exact Fy|]. now constructor.
Qed.
Lemma StronglySorted_rev {A} (R : A -> A -> Prop) l :
  StronglySorted R l -> StronglySorted (fun a b => R b a) (rev l).
Proof.
  induction l as [|x l IH]; intros S; cbn; [constructor|].
  apply StronglySorted_inv in S as [S F]. apply StronglySorted_snoc; [now apply IH|].
  apply Forall_rev. exact F.
Qed.
Lemma sort_reverse_sorted {A} (leb : A -> A -> bool) l :
  (forall a b, leb a b = true \/ leb b a = true) ->
  (forall a b c, leb a b = true -> leb b c = true -> leb a c = true) ->
  StronglySorted (fun a b => leb b a = true) (sort_reverse leb l).
Proof.
  intros T Tr. unfold sort_reverse.
  exact (StronglySorted_rev _ _ (isort_sorted leb T Tr (rev l))).
Qed.
