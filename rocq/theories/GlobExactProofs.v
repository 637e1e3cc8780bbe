(** Patterns for names, whatever the name. *)
From Coq Require Import List NArith ZArith Bool Lia.
From Verif Require Import Py Re GlobModel GlobSpec GlobProofs GlobPathProofs.
Import ListNotations.
Local Open Scope nat_scope.

Lemma at_end_iff b : at_end b = true <-> b = [] \/ b = [NL].
Proof.
  destruct b as [|x [|y b]]; cbn.
  - intuition.
  - rewrite N.eqb_eq. split; [intros ->; auto|]. intros [H|H]; [discriminate|]. now injection H.
  - intuition discriminate.
Qed.
Lemma glob_name_exact p l path base is_dir : for_name p l -> starts_plain p ->
  exists b, glob_match (translate (pattern_text p) true) path base is_dir = COk b /\
    (b = true <-> (exists y, NameMatch l y /\ (base = y \/ base = y ++ [NL])) /\ (p_directory p = true -> is_dir = true)).
Proof.
  intros Hp Hs. destruct (Hp) as (He & Hl & Hp').
  rewrite translate_start; [|exact Hs|].
  2:{ rewrite He. unfold body_text. cbn [map join_with elem_text]. apply name_word, Hp'. }
  rewrite finish_name with (l := l) by exact Hp.
  unfold glob_match. cbn [g_regex g_anchored g_directory].
  rewrite compile_toks.
  2:{ rewrite <- (app_nil_r (toks l)). destruct Hp' as (H1 & H2 & H3). now apply toks_ok_app. }
  cbn [cbind]. eexists. split; [reflexivity|]. rewrite andb_true_iff, glob_re_matches.
  assert (E : (exists a b, ToksMatch (toks l) a /\ base = a ++ b /\ at_end b = true) <->
              (exists y, NameMatch l y /\ (base = y \/ base = y ++ [NL]))).
  { split.
    - intros (a & b & Ha & -> & Hb). exists a. split; [now apply toks_name|].
      apply at_end_iff in Hb as [->| ->]; [left; apply app_nil_r|now right].
    - intros (y & Hy & [->| ->]).
      + exists y, []. rewrite app_nil_r. split; [now apply toks_name|auto].
      + exists y, [NL]. split; [now apply toks_name|auto]. }
  rewrite E. destruct (p_directory p), is_dir; cbn [negb orb]; intuition congruence.
Qed.
(** Without slashes it does not matter whether the pattern is for a path. *)
Lemma translate_flag s : ~ In SLASH s -> translate s false = translate s true.
Proof.
  intros H. unfold translate.
  assert (T : forall t : str, ~ In SLASH t -> ~ In SLASH (tl t)).
  { intros [|c t] Ht; [exact Ht|]. intros Hin. apply Ht. now right. }
  set (s1 := if starts_with ($"\#") s then tl s else s).
  assert (H1 : ~ In SLASH s1) by (unfold s1; destruct (starts_with _ s); auto).
  set (s2 := if starts_with ($"!") s1 then (false, tl s1) else (true, s1)).
  assert (H2 : ~ In SLASH (snd s2)) by (unfold s2; destruct (starts_with _ s1); cbn [snd]; auto).
  destruct s2 as [inc s2]. cbn [snd] in H2.
  set (s3 := if starts_with ($"\!") s2 then tl s2 else s2).
  assert (H3 : ~ In SLASH s3) by (unfold s3; destruct (starts_with _ s2); auto).
  now rewrite (index_none s3 H3).
Qed.
Lemma name_text_no_slash p l : for_name p l -> p_directory p = false -> ~ In SLASH (pattern_text p).
Proof.
  intros (He & Hl & Hp) Hd. unfold pattern_text. rewrite Hl, Hd, He. unfold body_text. cbn [map join_with elem_text].
  rewrite app_nil_r. destruct (name_word l Hp) as [_ H].
  destruct (p_negated p); cbn [app]; [|exact H]. intros Hin. apply in_app_iff in Hin as [Hin|Hin].
  - cbn in Hin. intuition discriminate.
  - now apply H.
Qed.

(** Patterns for a path, whatever the path. *)
Lemma cons_match k l a : ToksMatch (k :: l) a <-> exists b c, a = b ++ c /\ TokMatch k b /\ ToksMatch l c.
Proof.
  split.
  - intros H. apply toks_inv in H as (b & c & H1 & H2 & ->). eauto.
  - intros (b & c & -> & H1 & H2). now constructor.
Qed.
Lemma after_toks l : elems_ok l -> forall a, ToksMatch (tailt l) a <-> After l a.
Proof.
  assert (Nm : forall i t a, (forall a, ToksMatch (tailt t) a <-> After t a) ->
    ToksMatch (toks i ++ tailt t) a <-> exists b c, a = b ++ c /\ NameMatch i b /\ After t c).
  { intros i t a IH. rewrite toks_match_app. split; intros (b & c & -> & H1 & H2); exists b, c;
      (split; [reflexivity|]); (split; [apply toks_name; exact H1|apply IH; exact H2]). }
  induction l as [|i t IH| |i t IH|t] using elem_ind; intros Ho a.
  - cbn [tailt]. split; intros H; inversion H; constructor.
  - destruct Ho as (_ & Ho). specialize (Nm i t). cbn [tailt]. rewrite cons_match. split.
    + intros (b & c & -> & H1 & H2). inversion H1; subst. apply (Nm _ (IH Ho)) in H2 as (x & y & -> & Hx & Hy).
      exact (after_name i t x y Hx Hy).
    + intros H. inversion H as [|? ? x y Hx Hy| | | | ]; subst. exists [SLASH], (x ++ y). split; [reflexivity|].
      split; [constructor|]. apply (Nm _ (IH Ho)). eauto.
  - cbn [tailt]. rewrite cons_match. split.
    + intros (b & c & -> & H1 & H2). inversion H2; subst. rewrite app_nil_r. inversion H1; subst; now constructor.
    + intros H. exists a, []. rewrite app_nil_r. split; [reflexivity|]. split; [|constructor].
      inversion H as [| | |g [G1 G2]| | ]; subst; now constructor.
  - assert (Ho' : elems_ok t) by apply Ho. specialize (Nm i t). cbn [tailt]. rewrite cons_match. split.
    + intros (b & c & -> & H1 & H2). apply (Nm _ (IH Ho')) in H2 as (x & y & -> & Hx & Hy).
      inversion H1 as [| | | | | |g G1 G2| | | | ]; subst.
      * exact (after_here i t x y Hx Hy).
      * replace ((SLASH :: g ++ ($"/")) ++ x ++ y) with (SLASH :: g ++ SLASH :: x ++ y)
          by (cbn [app]; rewrite <- app_assoc; reflexivity). now apply (after_deep i t g x y).
    + intros H. inversion H as [| | | |? ? x y Hx Hy|? ? g x y [G1 G2] Hx Hy]; subst.
      * exists ($"/"), (x ++ y). split; [reflexivity|]. split; [constructor|]. apply (Nm _ (IH Ho')). eauto.
      * exists (SLASH :: g ++ ($"/")), (x ++ y). split; [cbn [app]; rewrite <- app_assoc; reflexivity|].
        split; [now constructor|]. apply (Nm _ (IH Ho')). eauto.
  - destruct Ho.
Qed.
Lemma text_toks l : flat_ok l -> forall a, ToksMatch (flat l) a <-> TextMatch l a.
Proof.
  intros (Ho & Hn & Hd) a.
  assert (Nm : forall i t a, elems_ok t ->
    ToksMatch (toks i ++ tailt t) a <-> exists b c, a = b ++ c /\ NameMatch i b /\ After t c).
  { clear. intros i t a Ho. rewrite toks_match_app. split; intros (b & c & -> & H1 & H2); exists b, c;
      (split; [reflexivity|]); (split; [apply toks_name; exact H1|apply after_toks; [exact Ho|exact H2]]). }
  destruct l as [|[i|] t]; [easy| |].
  - cbn [flat]. rewrite Nm by apply Ho. split.
    + intros (x & y & -> & Hx & Hy). now constructor.
    + intros H. inversion H; subst. eauto.
  - destruct t as [|[i|] t]; [easy| |destruct Ho]. cbn [flat]. rewrite cons_match. split.
    + intros (b & c & -> & H1 & H2). apply Nm in H2 as (x & y & -> & Hx & Hy); [|apply Ho].
      inversion H1 as [| | | | | | | |g G1 G2| | ]; subst.
      * exact (text_here i t x y Hx Hy).
      * replace ((g ++ ($"/")) ++ x ++ y) with (g ++ SLASH :: x ++ y) by (rewrite <- app_assoc; reflexivity).
        now apply (text_deep i t g x y).
    + intros H. inversion H as [|? ? x y Hx Hy|? ? g x y [G1 G2] Hx Hy]; subst.
      * exists [], (x ++ y). split; [reflexivity|]. split; [constructor|]. apply Nm; [apply Ho|eauto].
      * exists (g ++ ($"/")), (x ++ y). split; [rewrite <- app_assoc; reflexivity|].
        split; [now constructor|]. apply Nm; [apply Ho|eauto].
Qed.
(** The path without the slashes at its start *)
Lemma lstrip_iff path y : lstrip_p (N.eqb SLASH) path = y <->
  (exists k, path = repeat SLASH k ++ y) /\ (forall z, y <> SLASH :: z).
Proof.
  split.
  - intros <-. induction path as [|c t (IH1 & IH2)]; [split; [now exists 0|discriminate]|]. cbn [lstrip_p].
    destruct (N.eqb_spec SLASH c) as [<-|Hc].
    + split; [|exact IH2]. destruct IH1 as (k & E). exists (S k). cbn [repeat app]. now rewrite <- E.
    + split; [now exists 0|]. congruence.
  - intros ((k & ->) & H). apply lstrip_slashes. destruct y as [|c y]; [exact I|]. intros ->. now apply (H y).
Qed.
Lemma glob_path_exact p path base is_dir : path_form p -> starts_plain p ->
  exists b, glob_match (translate (pattern_text p) true) path base is_dir = COk b /\
    (b = true <-> (exists k x y, path = repeat SLASH k ++ x /\ (forall z, x <> SLASH :: z) /\
                    TextMatch (p_elems p) y /\ (x = y \/ x = y ++ [NL])) /\
                  (p_directory p = true -> is_dir = true)).
Proof.
  intros Hp Hs. destruct (Hp) as (_ & Ho & Hn & Hd).
  rewrite translate_start, finish_path by auto using body_nonempty.
  unfold glob_match. cbn [g_regex g_anchored g_directory].
  rewrite compile_toks by now apply flat_toks_ok. cbn [cbind]. eexists. split; [reflexivity|].
  rewrite andb_true_iff, glob_re_matches.
  assert (F : flat_ok (p_elems p)) by (split; auto).
  match goal with |- ?A /\ _ <-> ?B /\ _ => assert (E : A <-> B) end.
  { assert (L := proj1 (lstrip_iff path _) eq_refl). destruct L as ((k & L1) & L2). split.
    - intros (a & b & Ha & Hx & Hb). exists k, (lstrip_p (N.eqb SLASH) path), a.
      split; [exact L1|]. split; [exact L2|]. split; [now apply text_toks|].
      apply at_end_iff in Hb as [->| ->]; [left; now rewrite app_nil_r in Hx|now right].
    - intros (k' & x & y & E & Hx & Hy & H). assert (El : lstrip_p (N.eqb SLASH) path = x) by (apply lstrip_iff; eauto).
      rewrite El. apply text_toks in Hy; [|exact F]. destruct H as [->| ->].
      + exists y, []. rewrite app_nil_r. auto.
      + exists y, [NL]. auto. }
  rewrite E. destruct (p_directory p), is_dir; cbn [negb orb]; intuition congruence.
Qed.
