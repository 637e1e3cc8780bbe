(** A tactic for permutations of concatenated lists *)
From Coq Require Import List Permutation.
Import ListNotations.
Section Perm.
  Context {A : Type}.
  Implicit Types a b x y z : list A.
  Lemma perm_end x y : Permutation (x ++ []) (y ++ []) -> Permutation x y.
  Proof. now rewrite !app_nil_r. Qed.
  Lemma perm_cancel a l x r : Permutation x (l ++ r) -> Permutation (a ++ x) (l ++ a ++ r).
  Proof. intros ->. rewrite !app_assoc. apply Permutation_app_tail, Permutation_app_comm. Qed.
  Lemma perm0 a x r : Permutation x r -> Permutation (a ++ x) (a ++ r).
  Proof. apply Permutation_app_head. Qed.
  Lemma perm1 a b1 x r : Permutation x (b1 ++ r) -> Permutation (a ++ x) (b1 ++ a ++ r).
  Proof. apply perm_cancel. Qed.
  Lemma perm2 a b1 b2 x r : Permutation x (b1 ++ b2 ++ r) -> Permutation (a ++ x) (b1 ++ b2 ++ a ++ r).
  Proof. intros H. rewrite (app_assoc b1 b2 (a ++ r)). apply perm_cancel. now rewrite <- app_assoc. Qed.
  Lemma perm3 a b1 b2 b3 x r : Permutation x (b1 ++ b2 ++ b3 ++ r) -> Permutation (a ++ x) (b1 ++ b2 ++ b3 ++ a ++ r).
  Proof. intros H. rewrite (app_assoc b1 b2). apply perm2. now rewrite <- app_assoc. Qed.
  Lemma perm4 a b1 b2 b3 b4 x r : Permutation x (b1 ++ b2 ++ b3 ++ b4 ++ r) -> Permutation (a ++ x) (b1 ++ b2 ++ b3 ++ b4 ++ a ++ r).
  Proof. intros H. rewrite (app_assoc b1 b2). apply perm3. now rewrite <- app_assoc. Qed.
  Lemma perm5 a b1 b2 b3 b4 b5 x r : Permutation x (b1 ++ b2 ++ b3 ++ b4 ++ b5 ++ r) ->
    Permutation (a ++ x) (b1 ++ b2 ++ b3 ++ b4 ++ b5 ++ a ++ r).
  Proof. intros H. rewrite (app_assoc b1 b2). apply perm4. now rewrite <- app_assoc. Qed.
  Lemma perm6 a b1 b2 b3 b4 b5 b6 x r : Permutation x (b1 ++ b2 ++ b3 ++ b4 ++ b5 ++ b6 ++ r) ->
    Permutation (a ++ x) (b1 ++ b2 ++ b3 ++ b4 ++ b5 ++ b6 ++ a ++ r).
  Proof. intros H. rewrite (app_assoc b1 b2). apply perm5. now rewrite <- app_assoc. Qed.
  Lemma perm7 a b1 b2 b3 b4 b5 b6 b7 x r : Permutation x (b1 ++ b2 ++ b3 ++ b4 ++ b5 ++ b6 ++ b7 ++ r) ->
    Permutation (a ++ x) (b1 ++ b2 ++ b3 ++ b4 ++ b5 ++ b6 ++ b7 ++ a ++ r).
  Proof. intros H. rewrite (app_assoc b1 b2). apply perm6. now rewrite <- app_assoc. Qed.
  Lemma perm8 a b1 b2 b3 b4 b5 b6 b7 b8 x r : Permutation x (b1 ++ b2 ++ b3 ++ b4 ++ b5 ++ b6 ++ b7 ++ b8 ++ r) ->
    Permutation (a ++ x) (b1 ++ b2 ++ b3 ++ b4 ++ b5 ++ b6 ++ b7 ++ b8 ++ a ++ r).
  Proof. intros H. rewrite (app_assoc b1 b2). apply perm7. now rewrite <- app_assoc. Qed.
End Perm.
Ltac perm := apply perm_end; rewrite <- ?app_assoc; rewrite ?app_nil_l;
  repeat first [apply Permutation_refl | apply perm0 | apply perm1 | apply perm2 | apply perm3 | apply perm4
               | apply perm5 | apply perm6 | apply perm7 | apply perm8].
