From Coq Require Import List ZArith Bool Lia Arith.
From Verif Require Import Py WalkModel WalkSpec WalkProofs WalkInvProofs WalkEndProofs.
Import ListNotations.

Section Scan.
  Context {A : Type}.
  Variable excluded matched : A -> res bool.
  Variable rendered : A -> bool.
  Variable the_mode : mode.
  Variable jobs : nat.
  Notation works := (works excluded matched rendered the_mode jobs).
  Notation scan := (scan A excluded matched rendered the_mode jobs).
  Notation given := (given A).
  Notation handed := (handed A).
  Notation emitted := (emitted A).
  Notation to_search := (to_search A excluded).
  Notation to_report := (to_report A excluded matched).
  Notation usable := (usable A rendered the_mode).
  Definition short {B} (l : list B) : Prop := (1 <= length l <= 100)%nat.
  Definition outs (l : list (node A)) : list A := filter usable (map entry l).
  Lemma outs_app l l' : outs (l ++ l') = outs l ++ outs l'.
  Proof. unfold outs. now rewrite map_app, filter_app. Qed.
  Definition post (t : task A) (effs : list (effect A)) (ds' : list (node A)) : Prop :=
    match t with
    | TDirs ds => ds' = ds /\ effs = []
    | TEntries es z p ds => ds' = ds /\ exists kept, es = kept ++ concat (rev (given effs)) /\
        concat (handed effs) = z ++ filter to_search kept /\ concat (emitted effs) = outs (p ++ filter to_report kept) /\
        Forall short (handed effs) /\ Forall short (emitted effs) /\ Forall (fun l => l <> []) (given effs)
    | TPut n z p ds => (1 <= n <= 100)%nat -> ds' = ds /\ given effs = [] /\ concat (handed effs) = z /\ concat (emitted effs) = outs p /\
        Forall short (handed effs) /\ Forall short (emitted effs)
    | TEmit p ds => ds' = ds /\ given effs = [] /\ handed effs = [] /\ concat (emitted effs) = outs p /\ Forall short (emitted effs)
    | TSend es p ds => (length es <= 100)%nat -> ds' = ds /\ given effs = [] /\ handed effs = [] /\
        concat (emitted effs) = outs (es ++ p) /\ Forall short (emitted effs)
    | TArgs _ => False
    end.
  Lemma some_inj {B} (a b : B) : Some a = Some b -> a = b.
  Proof. congruence. Qed.
  Lemma scan_post t effs ds : calm A excluded matched -> scan t effs ds -> post t effs ds.
  Proof.
    intros C. induction 1 as [ds|t sp t' e effs ds' N Wk R IH]; [cbn; auto|]. apply work_works in Wk.
    revert IH. remember (Some t') as o eqn:O. destruct Wk as [| d ds | z p ds | x es z p ds D | x es z p ds X | x es z p ds b X M | x es z p ds b X M L
      | n p ds | n x z p ds | ds | x p ds | p ds | x es p ds Em | x es p ds Em Rn | x es p ds Em Rn | x es p ds Em Rn | | a l];
      try discriminate O; apply some_inj in O; subst t'; unfold post; intros IH.
    - now elim (N (d :: ds)).
    - destruct (IH (proj1 (conj (conj (Nat.le_trans 1 10 _ ltac:(lia) (proj1 (chunk_size_bounds jobs (length z)))) (proj2 (chunk_size_bounds jobs (length z)))) I)))
        as (-> & G & H & E & F1 & F2).
      split; [reflexivity|]. exists []. cbn [given flat_map] in *. fold (given effs). unfold WalkSpec.given in *. cbn [flat_map app]. rewrite G. cbn.
      rewrite !app_nil_r. repeat split; auto.
    - exfalso. destruct (C (entry x)) as [[b1 E1] [b2 E2]]. destruct D as [D|[_ D]]; congruence.
    - destruct IH as (-> & kept & G & H & E & F1 & F2 & F3). split; [reflexivity|]. exists (x :: kept).
      cbn [filter]. unfold to_search at 1, to_report at 1. rewrite X. repeat split; auto. cbn [app]. f_equal. exact G.
    - destruct IH as (-> & kept & G & H & E & F1 & F2 & F3). split; [reflexivity|]. exists (x :: kept).
      cbn [filter]. unfold to_search at 1, to_report at 1. rewrite X, M. repeat split; auto.
      + cbn [app]. f_equal. exact G.
      + cbn [WalkSpec.handed flat_map app]. fold (handed effs). rewrite H. destruct (is_dir x); [now rewrite <- app_assoc|reflexivity].
      + cbn [WalkSpec.emitted flat_map app]. fold (emitted effs). rewrite E. destruct b; [now rewrite <- app_assoc|reflexivity].
    - destruct IH as (-> & kept & G & H & E & F1 & F2 & F3). split; [reflexivity|]. exists (x :: kept).
      cbn [filter]. unfold to_search at 1, to_report at 1. rewrite X, M. repeat split; auto.
      + cbn [app]. f_equal. cbn [WalkSpec.given flat_map app rev]. fold (given effs). rewrite concat_app. cbn [concat]. rewrite app_nil_r, app_assoc, <- G.
        now rewrite firstn_skipn.
      + cbn [WalkSpec.handed flat_map app]. fold (handed effs). rewrite H. destruct (is_dir x); [now rewrite <- app_assoc|reflexivity].
      + cbn [WalkSpec.emitted flat_map app]. fold (emitted effs). rewrite E. destruct b; [now rewrite <- app_assoc|reflexivity].
      + cbn [WalkSpec.given flat_map app]. constructor; [|exact F3]. intros Z. apply (f_equal (@length _)) in Z. rewrite skipn_length in Z.
        unfold split_at in Z. cbn [length] in Z. pose proof (Nat.div_mod (length es) 2 ltac:(lia)). pose proof (Nat.mod_upper_bound (length es) 2 ltac:(lia)). lia.
    - intros _. destruct IH as (-> & G & H & E & F). cbn [WalkSpec.handed flat_map app]. fold (handed effs). rewrite H. repeat split; auto.
    - intros Hn. destruct (IH Hn) as (-> & G & H & E & F1 & F2). cbn [WalkSpec.handed flat_map app concat]. fold (handed effs). rewrite H, firstn_skipn.
      repeat split; auto. constructor; [|exact F1]. unfold short. rewrite firstn_length. cbn [length]. lia.
    - destruct IH as [-> ->]. cbn. auto.
    - assert (F : (length (firstn 100 (x :: p)) <= 100)%nat) by (rewrite firstn_length; lia). destruct (IH F) as (-> & G & H & E & F2).
      rewrite firstn_skipn in E. destruct the_mode; repeat split; auto.
    - intros _. destruct IH as (-> & G & H & E & F2). repeat split; auto.
    - intros L. destruct IH as (-> & G & H & E & F2). cbn [WalkSpec.emitted flat_map app concat]. fold (emitted effs). rewrite E.
      repeat split; auto.
      + change (x :: es ++ p) with ((x :: es) ++ p). rewrite outs_app. f_equal. unfold outs, WalkSpec.usable. rewrite Em. clear. induction (map entry (x :: es)) as [|y l IHl]; [reflexivity|]. cbn. now rewrite <- IHl.
      + constructor; [|exact F2]. unfold short. cbn [map length] in *. rewrite map_length. lia.
    - intros L. cbn [length] in L. destruct IH as (-> & G & H & E & F2); [lia|]. cbn [WalkSpec.emitted flat_map app concat]. fold (emitted effs). rewrite E.
      repeat split; auto.
      + unfold outs. cbn [map filter]. unfold usable at 2. rewrite Em, Rn. reflexivity.
      + constructor; [|exact F2]. unfold short. cbn. lia.
    - intros L. cbn [length] in L. destruct IH as (-> & G & H & E & F2); [lia|]. cbn [WalkSpec.emitted flat_map app concat]. fold (emitted effs). rewrite E.
      repeat split; auto.
      + unfold outs. cbn [map filter]. unfold usable at 2. rewrite Em, Rn. reflexivity.
      + constructor; [|exact F2]. unfold short. cbn. lia.
    - intros L. cbn [length] in L. destruct IH as (-> & G & H & E & F2); [lia|]. cbn [WalkSpec.emitted flat_map app concat]. fold (emitted effs). rewrite E.
      repeat split; auto. unfold outs. cbn [map filter app]. unfold usable at 2. rewrite Rn. now destruct the_mode.
    - exact IH.
  Qed.
  Lemma scan_spec es effs ds ds' : calm A excluded matched -> scan (TEntries es [] [] ds) effs ds' ->
    ds' = ds /\ exists kept, es = kept ++ concat (rev (given effs)) /\
      concat (handed effs) = filter to_search kept /\ concat (emitted effs) = filter usable (map entry (filter to_report kept)) /\
      Forall short (handed effs) /\ Forall short (emitted effs) /\ Forall (fun l => l <> []) (given effs).
  Proof. intros C S. exact (scan_post _ _ _ C S). Qed.
End Scan.
