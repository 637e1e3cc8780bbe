(** Ignore files with well-formed patterns in a tree of directories. *)
From Coq Require Import List NArith ZArith Bool Lia.
From Verif Require Import Py Re ReJoin PathModel PathSpec PathProofs GlobModel GlobSpec GlobProofs GlobPathProofs
  IgnoreModel IgnoreSpec IgnoreProofs IgnoreListProofs.
Import ListNotations.

Lemma name_path_excl p l : for_name p l -> for_path p -> False.
Proof. intros (H1 & H2 & _) ((H3 & _) & _). rewrite H1 in H3. cbn in H3. destruct H3; [congruence|lia]. Qed.
Lemma applies_dec p path name r k is_dir : well_formed p -> Forall entry_name r -> r <> [] ->
  path = repeat SLASH k ++ join_with ($"/") r -> name = last r [] ->
  glob_match (translate (pattern_text p) true) path name is_dir = COk true <-> Applies p r is_dir.
Proof.
  intros (Hs & Hw) Hr Hne -> ->. destruct Hw as [Hp|(l & Hl)].
  - destruct (glob_path p k r (last r []) is_dir Hp Hs Hr Hne) as (b & E & Hb). rewrite E. split.
    + intros G. injection G as ->. destruct Hb as [Hb _]. destruct (Hb eq_refl). now apply ap_path.
    + intros [l Hl HN HD|_ HN HD]; [now destruct (name_path_excl p l)|]. f_equal. apply Hb. auto.
  - assert (Hnl : ~ In NL (last r [])).
    { destruct (exists_last Hne) as (r' & x & ->). rewrite last_last. apply Forall_app in Hr as [_ Hr].
      apply Forall_inv in Hr. apply Hr. }
    destruct (glob_name p l (repeat SLASH k ++ join_with ($"/") r) (last r []) is_dir Hl Hs Hnl) as (b & E & Hb).
    rewrite E. split.
    + intros G. injection G as ->. destruct Hb as [Hb _]. destruct (Hb eq_refl). eapply ap_name; eauto.
    + intros [l' Hl' HN HD|HP HN HD]; [|now destruct (name_path_excl p l)]. f_equal. apply Hb. split; [|exact HD].
      destruct Hl as (E1 & _), Hl' as (E2 & _). rewrite E1 in E2. now injection E2 as ->.
Qed.

Lemma join_with_app (a b : list str) : a <> [] -> b <> [] ->
  join_with [SLASH] (a ++ b) = join_with [SLASH] a ++ SLASH :: join_with [SLASH] b.
Proof.
  intros Ha Hb. induction a as [|x a IH]; [easy|]. destruct a as [|y a].
  - destruct b as [|z b]; [easy|]. reflexivity.
  - change (join_with [SLASH] ((x :: y :: a) ++ b)) with (x ++ [SLASH] ++ join_with [SLASH] ((y :: a) ++ b)).
    rewrite IH by easy.
    change (join_with [SLASH] (x :: y :: a)) with (x ++ [SLASH] ++ join_with [SLASH] (y :: a)).
    now rewrite <- !app_assoc.
Qed.
Lemma skipn_len_app {A} (a b : list A) : skipn (length a) (a ++ b) = b.
Proof. induction a; [reflexivity|assumption]. Qed.
Lemma relpath_below d r : r <> [] -> exists k, relpath (abs_dir (d ++ r)) (abs_dir d) = repeat SLASH k ++ join_with ($"/") r.
Proof.
  intros Hr. destruct d as [|x d].
  - exists 0%nat. reflexivity.
  - exists 1%nat. unfold relpath.
    assert (E : abs_dir ((x :: d) ++ r) = abs_dir (x :: d) ++ SLASH :: join_with [SLASH] r).
    { unfold abs_dir. change ($"/") with [SLASH]. rewrite join_with_app by easy. now rewrite app_assoc. }
    rewrite E, skipn_len_app. reflexivity.
Qed.
Lemma decided_map_inv {A B} (P : B -> Prop) (f : A -> B) l v : Decided P None (map f l) v ->
  exists w, v = option_map f w /\ Decided (fun a => P (f a)) None l w.
Proof.
  intros H. remember (map f l) as m eqn:E. destruct H as [m H|m a m' Ha H].
  - exists None. split; [reflexivity|]. constructor. subst m. now rewrite Forall_map in H.
  - symmetry in E. apply map_eq_app in E as (l1 & l2 & -> & <- & E). destruct l2 as [|b l2]; [discriminate|].
    cbn in E. injection E as <- <-. exists (Some b). split; [reflexivity|]. apply dec_last; [exact Ha|].
    now rewrite Forall_map in H.
Qed.
Lemma decided_ext {A} (P Q : A -> Prop) l v : (forall a, In a l -> (P a <-> Q a)) -> Decided P None l v -> Decided Q None l v.
Proof.
  intros E H. destruct H as [l H|l a l' Ha H].
  - constructor. rewrite Forall_forall in *. intros a Hin G. apply (H a Hin), E; assumption.
  - apply dec_last; [apply E; [apply in_or_app; right; now left|exact Ha]|].
    rewrite Forall_forall in *. intros b Hin G. apply (H b Hin), E; [|exact G]. apply in_or_app. right. now right.
Qed.
Lemma decided_in {A} (P : A -> Prop) l v : Decided P None l (Some v) -> In v l.
Proof.
  intros H. remember (Some v) as w. destruct H as [|l a l' _ _]; [discriminate|]. injection Heqw as ->.
  apply in_or_app. right. now left.
Qed.
Lemma pattern_lines_id ps : Forall (fun p => well_formed p /\ line_ok (pattern_text p)) ps ->
  pattern_lines (map pattern_text ps) = map pattern_text ps.
Proof.
  intros H. unfold pattern_lines. induction H as [|p ps (_ & E1 & E2) _ IH]; [reflexivity|].
  cbn [map]. rewrite E1. cbn [filter]. rewrite E2. f_equal. exact IH.
Qed.
Definition to_rule (r : tree_rule) : rule := let '(d, n, p) := r in (abs_dir d, join (abs_dir d) n, pattern_text p).
Lemma tree_rules_text files e : Forall (tree_file_ok e) files ->
  flat_map file_rules (map text_file files) = map to_rule (flat_map tree_rules files).
Proof.
  induction 1 as [|[[d n] ps] files (_ & _ & Hp) _ IH]; [reflexivity|].
  cbn [map flat_map]. rewrite map_app. f_equal; [|exact IH].
  unfold text_file, file_rules, tree_rules. rewrite pattern_lines_id by exact Hp. rewrite !map_map. reflexivity.
Qed.
Theorem tree_decides files e is_dir : e <> [] -> Forall tree_component e -> Forall (tree_file_ok e) files ->
  exists igs v,
    Forall2 (fun (f : tree_file) ig => let '(d, n, ps) := f in
      new_gitignore (abs_dir d) n (map pattern_text ps) = COk ig) files igs /\
    Decided (rule_at e is_dir) None (flat_map tree_rules files) v /\
    git_match igs (abs_dir e) (last e []) is_dir = tree_answer v.
Proof.
  intros Hne He Hf.
  assert (Hent : Forall entry_name e) by (eapply Forall_impl; [|exact He]; now intros n [G _]).
  assert (Hr : forall d n p, In (d, n, p) (flat_map tree_rules files) ->
    (exists below, e = d ++ below /\ below <> []) /\ name_ok n /\ well_formed p).
  { intros d n p Hin. apply in_flat_map in Hin as ([[d' n'] ps] & Hin & Hin').
    rewrite Forall_forall in Hf. destruct (Hf _ Hin) as (H1 & H2 & H3). unfold tree_rules in Hin'.
    apply in_map_iff in Hin' as (p' & E & Hp). injection E as -> -> ->. split; [exact H1|]. split; [exact H2|].
    rewrite Forall_forall in H3. now apply H3. }
  destruct (git_match_decides (map text_file files) (abs_dir e) (last e []) is_dir) as (igs & v & F & D & E).
  - apply Forall_map, Forall_forall. intros [[d n] ps] _. easy.
  - rewrite (tree_rules_text files e Hf). apply Forall_map, Forall_forall. intros [[d n] p] Hin.
    destruct (Hr _ _ _ Hin) as (_ & _ & (Hs & Hw)). unfold to_rule, rule_valid, valid. now apply glob_compiles.
  - rewrite (tree_rules_text files e Hf) in D. apply decided_map_inv in D as (w & -> & D).
    exists igs, w. split; [|split].
    + clear - F. remember (map text_file files) as m eqn:Em. revert files Em.
      induction F as [|f ig m igs H F IH]; intros [|g files] Em; try discriminate; [constructor|].
      cbn in Em. injection Em as -> ->. constructor; [|now apply IH]. destruct g as [[d n] ps]. exact H.
    + eapply decided_ext; [|exact D]. intros [[d n] p] Hin. destruct (Hr _ _ _ Hin) as ((r & -> & Hrne) & _ & Hw).
      unfold to_rule, rule_applies. destruct (relpath_below d r Hrne) as (k & Ek). rewrite Ek.
      assert (Hre : Forall entry_name r) by now apply Forall_app in Hent as [_ Hent].
      assert (El : last (d ++ r) [] = last r []) by now apply last_app_ne. rewrite El.
      rewrite (applies_dec p _ _ r k is_dir Hw Hre Hrne eq_refl eq_refl). unfold rule_at. split.
      * intros G. exists r. auto.
      * intros (r' & Er & G). apply app_inv_head in Er. now subst r'.
    + rewrite E. destruct w as [[[d n] p]|]; [|reflexivity]. apply decided_in, Hr in D as ((r & -> & _) & Hn & Hs & Hw).
      cbn [option_map to_rule answer tree_answer]. rewrite glob_include by assumption.
      destruct (p_negated p); [reflexivity|]. cbn [negb]. do 2 f_equal. apply join_abs; [|exact Hn].
      apply Forall_app in He as [He _]. eapply Forall_impl; [|exact He]. intros a ((H1 & H2 & _) & H3 & H4). repeat split; assumption.
Qed.
