(** Two searches of the same tree print the same sequence. *)
From Coq Require Import List NArith ZArith Bool Lia Permutation.
From Verif Require Import Py TypeModel FieldModel SortModel SortSpec SortProofs WalkModel WalkSpec WalkInvProofs WalkStatusProofs.
Import ListNotations.

Lemma list_sort_perm {A} (key : A -> res pv) reverse l l' out : list_sort key reverse l = Ok out -> Permutation l l' ->
  (forall a b, In a l -> In b l -> key a = key b -> a = b) -> list_sort key reverse l' = Ok out.
Proof.
  intros E P D. destruct (list_sort_spec _ _ _ _ E) as (k & K & S).
  assert (K' : forall a, In a l' -> key a = Ok (k a)) by (intros a Ha; apply K; eapply Permutation_in; [symmetry; exact P|exact Ha]).
  assert (C : forall a b, In a l -> In b l -> comparable (k a) (k b) = true).
  { unfold list_sort in E. rewrite (mapr_total key k l K) in E. cbn [bindr] in E.
    destruct (all_comparable (map k l)) eqn:C; [|discriminate]. rewrite all_comparable_iff in C.
    intros a b Ha Hb. apply C; now apply in_map. }
  destruct (list_sort_ok key k reverse l' K') as [out' E'].
  { intros a b Ha Hb. apply C; (eapply Permutation_in; [symmetry; exact P|assumption]). }
  rewrite E'. f_equal. destruct (list_sort_spec _ _ _ _ E') as (k2 & K2 & S2).
  assert (S3 : Sorted_by k reverse l' out').
  { destruct S2 as (Q1 & Q2 & Q3).
    assert (X : forall a, In a l' -> k2 a = k a) by (intros a Ha; assert (Y := K2 a Ha); rewrite (K' a Ha) in Y; congruence).
    split; [exact Q1|]. split.
    - assert (F : Forall (fun a => In a l') out') by (apply Forall_forall; intros a Ha; eapply Permutation_in; [symmetry; exact Q1|exact Ha]).
      clear -Q2 F X. induction Q2 as [|x t S IH G]; constructor; inversion F; subst; auto.
      rewrite Forall_forall in *. intros y Hy. specialize (G y Hy). rewrite !X in G by auto. exact G.
    - intros p Hp. apply Q3. intros a b Ha Hb Pa Pb. rewrite !X by assumption. auto. }
  symmetry. apply (sorted_unique k reverse l l' out out' S S3 P).
  intros a b Ha Hb Ek. apply D; auto. now rewrite !K, Ek.
Qed.

Lemma schedule A (excluded matched : A -> res bool) (rendered : A -> bool) halt1 halt2 (jobs1 jobs2 : nat) (timeout1 timeout2 : Z)
  get sort reverse roots ls1 s1 ls2 s2 out :
  (0 < jobs1)%nat -> (0 < jobs2)%nat -> calm A excluded matched -> NoDup (tree_all roots) ->
  run A excluded matched rendered Collect jobs1 halt1 true true timeout1 (initial A jobs1 roots) ls1 s1 -> main_ s1 = MPassed ->
  run A excluded matched rendered Collect jobs2 halt2 true true timeout2 (initial A jobs2 roots) ls2 s2 -> main_ s2 = MPassed ->
  (forall a b, In a (results Collect s1) -> In b (results Collect s1) -> render get sort a = render get sort b -> a = b) ->
  finalize get (Some sort) reverse (results Collect s1) = Ok out -> finalize get (Some sort) reverse (results Collect s2) = Ok out.
Proof.
  intros J1 J2 C N R1 M1 R2 M2 D E. unfold finalize in *. eapply list_sort_perm; [exact E| |exact D].
  apply NoDup_Permutation.
  - eapply (safe excluded matched rendered Collect jobs1 halt1 true true timeout1); eauto.
  - eapply (safe excluded matched rendered Collect jobs2 halt2 true true timeout2); eauto.
  - intros a. rewrite (all_results excluded matched rendered Collect jobs1 halt1 true true timeout1 roots ls1 s1 J1 eq_refl C (fun _ => eq_refl) R1 M1 a).
    rewrite (all_results excluded matched rendered Collect jobs2 halt2 true true timeout2 roots ls2 s2 J2 eq_refl C (fun _ => eq_refl) R2 M2 a).
    reflexivity.
Qed.
