(** Proofs about the path helpers. *)
From Coq Require Import List NArith ZArith Bool Lia.
From Verif Require Import Py PathModel PathSpec.
Import ListNotations.
Open Scope Z_scope.

Notation len s := (Z.of_nat (length s)).

Lemma slice_to {A} (a b : list A) : slice (a ++ b) None (Some (len a)) = a.
Proof.
  unfold slice, slice_bound. rewrite app_length.
  destruct (Z.ltb_spec (len a) 0); [lia|].
  replace (Z.to_nat (Z.min (len a) (Z.of_nat (length a + length b)) - 0)) with (length a) by lia.
  cbn [Z.to_nat skipn]. rewrite firstn_app, Nat.sub_diag, firstn_all. cbn. apply app_nil_r.
Qed.
Lemma slice_from {A} (a b : list A) : slice (a ++ b) (Some (len a)) None = b.
Proof.
  unfold slice, slice_bound. rewrite app_length.
  destruct (Z.ltb_spec (len a) 0); [lia|].
  replace (Z.to_nat (Z.min (len a) (Z.of_nat (length a + length b)))) with (length a) by lia.
  rewrite skipn_app, Nat.sub_diag, skipn_all. cbn [skipn app].
  apply firstn_all2. lia.
Qed.
Lemma slice_one {A} (a : list A) x b :
  slice (a ++ x :: b) (Some (len a)) (Some (len a + 1)) = [x].
Proof.
  unfold slice, slice_bound. rewrite app_length. cbn [length].
  destruct (Z.ltb_spec (len a) 0); [lia|]. destruct (Z.ltb_spec (len a + 1) 0); [lia|].
  replace (Z.to_nat (Z.min (len a) (Z.of_nat (length a + S (length b))))) with (length a) by lia.
  rewrite skipn_app, Nat.sub_diag, skipn_all. cbn [skipn app].
  replace (Z.to_nat _) with 1%nat by lia. reflexivity.
Qed.

Lemma rfind_none c s i best : ~ In c s -> rfind_from c s i best = best.
Proof.
  revert i best; induction s as [|x t IH]; intros i best H; cbn; [reflexivity|].
  rewrite IH by (cbn in H; tauto).
  destruct (N.eqb_spec x c); [subst; cbn in H; tauto|reflexivity].
Qed.
Lemma rfind_last_from c a b i best : ~ In c b -> rfind_from c (a ++ c :: b) i best = i + len a.
Proof.
  intros H. revert i best; induction a as [|x t IH]; intros i best; cbn [app rfind_from].
  - rewrite N.eqb_refl, rfind_none by exact H. cbn. lia.
  - rewrite IH. cbn [length]. lia.
Qed.
Lemma rfind_absent c s : ~ In c s -> rfind c s = -1.
Proof. apply rfind_none. Qed.
Lemma rfind_last c a b : ~ In c b -> rfind c (a ++ c :: b) = len a.
Proof. intros H. unfold rfind. now rewrite rfind_last_from. Qed.

Lemma last_occ (c : char) s : ~ In c s \/ exists a b, s = a ++ c :: b /\ ~ In c b.
Proof.
  induction s as [|x t IH]; [left; intros []|].
  destruct IH as [H|(a & b & -> & H)].
  - destruct (N.eq_dec x c) as [->|n].
    + right. now exists [], t.
    + left. intros [E|E]; auto.
  - right. now exists (x :: a), b.
Qed.

(** Shape of [split]. *)
Lemma split_noslash p : ~ In SLASH p -> split p = ([], p).
Proof. intros H. unfold split. now rewrite rfind_absent. Qed.
Lemma split_slash a b : ~ In SLASH b ->
  split (a ++ SLASH :: b) = (match a with [] => [SLASH] | _ => a end, b).
Proof.
  intros H. unfold split. rewrite rfind_last by exact H.
  destruct (Z.ltb_spec (len a) 0); [lia|].
  destruct a as [|x a].
  - cbn [length Z.of_nat Z.eqb app]. f_equal.
    exact (slice_from [SLASH] b).
  - destruct (Z.eqb_spec (len (x :: a)) 0); [cbn in *; lia|].
    f_equal; [apply slice_to|].
    replace (len (x :: a) + 1) with (len ((x :: a) ++ [SLASH])) by (rewrite app_length; cbn [length]; lia).
    replace ((x :: a) ++ SLASH :: b) with (((x :: a) ++ [SLASH]) ++ b) by now rewrite <- app_assoc.
    apply slice_from.
Qed.

Lemma join_with_snoc l x : l <> [] ->
  join_with [SLASH] (l ++ [x]) = join_with [SLASH] l ++ SLASH :: x.
Proof.
  induction l as [|y [|z l] IH]; intros H; [easy|reflexivity|].
  cbn [app join_with] in *. rewrite IH by easy. now rewrite <- app_assoc.
Qed.
Lemma join_with_nonnil l : l <> [] -> Forall name_ok l -> join_with [SLASH] l <> [].
Proof.
  destruct l as [|y [|z l]]; intros H F; [easy| |].
  - inversion F as [|? ? [? ?]]; now subst.
  - cbn. destruct y; cbn; easy.
Qed.

(** A normal path other than the root is a directory part and a name. *)
Lemma normal_cases p : normal p ->
  p = [SLASH] \/ name_ok p \/
  exists d n, name_ok n /\ (d = [] \/ (d <> [SLASH] /\ normal d)) /\ p = d ++ SLASH :: n.
Proof.
  intros [|cs Hn F|cs Hn F]; [now left| |];
    destruct (exists_last Hn) as (l & n & ->);
    apply Forall_app in F as [F Fn]; inversion Fn as [|? ? Hname _]; subst;
    (destruct l as [|y l]; [|rewrite join_with_snoc by easy]).
  - right; left. exact Hname.
  - right; right. exists (join_with [SLASH] (y :: l)), n. split; [exact Hname|].
    split; [|reflexivity]. right. split; [|now apply normal_rel].
    inversion F as [|? ? [Hy1 Hy2] _]; subst. destruct l; cbn [join_with].
    + intros ->. apply Hy2. now left.
    + destruct y as [|c y]; [easy|]. cbn. intros [= -> ?]. apply Hy2. now left.
  - right; right. exists [], n. cbn. auto.
  - right; right. exists (SLASH :: join_with [SLASH] (y :: l)), n. split; [exact Hname|].
    split; [|reflexivity]. right. split; [|now apply normal_abs].
    intros E. injection E as E. exact (join_with_nonnil (y :: l) ltac:(easy) F E).
Qed.

Lemma normal_nonnil p : normal p -> p <> [].
Proof. intros [|cs Hn F|cs Hn F]; [easy|now apply join_with_nonnil|easy]. Qed.

Lemma split_join_normal p : normal p -> join (fst (split p)) (snd (split p)) = p.
Proof.
  intros H. apply normal_cases in H as [->|[[H1 H2]|(d & n & [H1 H2] & Hd & ->)]].
  - reflexivity.
  - rewrite split_noslash by exact H2. reflexivity.
  - rewrite split_slash by exact H2. cbn [fst snd].
    destruct n as [|c n]; [easy|].
    destruct Hd as [->|[Hd Hn]]; [reflexivity|].
    apply normal_nonnil in Hn. destruct d as [|x d]; [easy|]. unfold join.
    apply str_eqb_neq in Hd. now rewrite Hd.
Qed.

Lemma join_split_normal d n : d = [] \/ normal d -> name_ok n -> split (join d n) = (d, n).
Proof.
  intros Hd [H1 H2]. destruct d as [|x d].
  - now apply split_noslash.
  - unfold join. destruct n as [|c n]; [easy|].
    destruct (str_eqb (x :: d) [SLASH]) eqn:E.
    + apply str_eqb_eq in E. rewrite E. exact (split_slash [] (c :: n) H2).
    + exact (split_slash (x :: d) (c :: n) H2).
Qed.

Lemma after_last_noslash s : ~ In SLASH s -> after_last s = s.
Proof.
  destruct s as [|x t]; [reflexivity|]. intros H. cbn [after_last].
  assert (E : has_char SLASH t = false) by (apply has_char_false; cbn in H; tauto).
  rewrite E. destruct (N.eqb_spec x SLASH); [subst; cbn in H; tauto|reflexivity].
Qed.
Lemma after_last_slash a b : ~ In SLASH b -> after_last (a ++ SLASH :: b) = b.
Proof.
  intros H. induction a as [|x a IH]; cbn [app after_last].
  - apply has_char_false in H. now rewrite H, N.eqb_refl.
  - assert (E : has_char SLASH (a ++ SLASH :: b) = true).
    { apply has_char_iff, in_or_app. right. now left. }
    now rewrite E.
Qed.
Lemma upto_last_noslash s : ~ In SLASH s -> upto_last s = [].
Proof. intros H. unfold upto_last. now rewrite after_last_noslash, Nat.sub_diag. Qed.
Lemma upto_last_slash a b : ~ In SLASH b -> upto_last (a ++ SLASH :: b) = a ++ [SLASH].
Proof.
  intros H. unfold upto_last. rewrite after_last_slash by exact H.
  replace (a ++ SLASH :: b) with ((a ++ [SLASH]) ++ b) by now rewrite <- app_assoc.
  rewrite (app_length _ b).
  replace (length (a ++ [SLASH]) + length b - length b)%nat with (length (a ++ [SLASH])) by lia.
  rewrite firstn_app, Nat.sub_diag, firstn_all. apply app_nil_r.
Qed.

(** A normal path other than the root does not end with a slash. *)
Lemma normal_last p : normal p -> p <> [SLASH] -> exists q c, p = q ++ [c] /\ c <> SLASH.
Proof.
  intros H Hr. apply normal_cases in H as [->|[[H1 H2]|(d & n & [H1 H2] & _ & ->)]]; [easy| |].
  - destruct (exists_last H1) as (q & c & ->). exists q, c. split; [reflexivity|].
    intros ->. apply H2, in_or_app. right. now left.
  - destruct (exists_last H1) as (q & c & ->). exists (d ++ SLASH :: q), c.
    split; [now rewrite <- app_assoc|]. intros ->. apply H2, in_or_app. right. now left.
Qed.

Lemma split_os p : normal p -> split p = os_split p.
Proof.
  intros H. apply normal_cases in H as [->|[[H1 H2]|(d & n & [H1 H2] & Hd & ->)]].
  - reflexivity.
  - rewrite split_noslash by exact H2. unfold os_split.
    rewrite upto_last_noslash, after_last_noslash by exact H2. reflexivity.
  - rewrite split_slash by exact H2. unfold os_split.
    rewrite upto_last_slash, after_last_slash by exact H2. f_equal.
    destruct Hd as [->|[Hr Hn]]; [reflexivity|].
    pose proof (normal_nonnil _ Hn) as Hne.
    destruct (normal_last _ Hn Hr) as (q & c & -> & Hc).
    destruct (forallb (N.eqb SLASH) ((q ++ [c]) ++ [SLASH])) eqn:E.
    + rewrite forallb_forall in E. exfalso. apply Hc. symmetry. apply N.eqb_eq, E.
      apply in_or_app. left. apply in_or_app. right. now left.
    + unfold rstrip_p. rewrite rev_app_distr. cbn [rev app lstrip_p].
      change (N.eqb SLASH SLASH) with true. cbv iota.
      rewrite rev_app_distr. cbn [rev app lstrip_p].
      assert (Ec : N.eqb SLASH c = false) by (apply N.eqb_neq; congruence). rewrite Ec.
      cbn [rev]. rewrite rev_involutive. now destruct q.
Qed.

Lemma join_os a b : a = [] \/ normal a -> b <> [] -> starts_with [SLASH] b = false ->
  join a b = os_join a b.
Proof.
  intros Ha Hb Hs. unfold os_join. rewrite Hs.
  destruct a as [|x a]; [reflexivity|]. destruct Ha as [Ha|Ha]; [easy|].
  unfold join. destruct b as [|y b]; [easy|].
  destruct (str_eqb (x :: a) [SLASH]) eqn:E.
  - apply str_eqb_eq in E. rewrite E. reflexivity.
  - apply str_eqb_neq in E. destruct (normal_last _ Ha E) as (q & c & Eq & Hc).
    assert (Ew : ends_with [SLASH] (x :: a) = false).
    { rewrite Eq. unfold ends_with. rewrite rev_app_distr.
      cbn [rev app starts_with]. apply andb_false_intro1, N.eqb_neq. congruence. }
    now rewrite Ew.
Qed.

(** splitext *)
Lemma dot_loop_spec d k r :
  dot_loop (d ++ k ++ r) (len d) (length k) = existsb (fun c => negb (N.eqb c DOT)) k.
Proof.
  revert d; induction k as [|c k IH]; intros d; [reflexivity|].
  cbn [length dot_loop existsb app]. rewrite slice_one.
  cbn [str_eqb leqb]. unfold str_eqb. cbn [leqb]. rewrite andb_true_r.
  destruct (N.eqb c DOT) eqn:E; cbn [negb orb]; [|reflexivity].
  replace (len d + 1) with (len (d ++ [c])) by (rewrite app_length; cbn [length]; lia).
  replace (d ++ c :: k ++ r) with ((d ++ [c]) ++ k ++ r) by now rewrite <- app_assoc.
  apply IH.
Qed.

Lemma last_component s : exists d k, s = d ++ k /\ ~ In SLASH k /\
  (d = [] \/ exists d', d = d' ++ [SLASH]) /\ rfind SLASH s = len d - 1.
Proof.
  destruct (last_occ SLASH s) as [H|(a & b & -> & H)].
  - exists [], s. rewrite rfind_absent by exact H. auto.
  - exists (a ++ [SLASH]), b. rewrite rfind_last by exact H. rewrite app_length. cbn [length].
    rewrite <- app_assoc. repeat split; eauto. lia.
Qed.

Lemma split_unique (c : char) a b a' b' :
  ~ In c b -> ~ In c b' -> a ++ c :: b = a' ++ c :: b' -> a = a' /\ b = b'.
Proof.
  revert a'; induction a as [|x a IH]; intros [|y a'] H H' E; cbn in E.
  - injection E as E. auto.
  - injection E as E1 E2. subst. exfalso. apply H, in_or_app. right. now left.
  - injection E as E1 E2. subst. exfalso. apply H', in_or_app. right. now left.
  - injection E as E1 E2. subst. destruct (IH a') as [-> ->]; auto.
Qed.

Lemma comp_unique d k d' k' : ~ In SLASH k -> ~ In SLASH k' ->
  (d = [] \/ exists x, d = x ++ [SLASH]) -> (d' = [] \/ exists x, d' = x ++ [SLASH]) ->
  d ++ k = d' ++ k' -> d = d' /\ k = k'.
Proof.
  intros H H' [->|[x ->]] [->|[x' ->]] E.
  - auto.
  - exfalso. cbn in E. subst k. apply H, in_or_app. left. apply in_or_app. right. now left.
  - exfalso. cbn in E. subst k'. apply H', in_or_app. left. apply in_or_app. right. now left.
  - rewrite <- !app_assoc in E. cbn in E. apply split_unique in E as [-> ->]; auto.
Qed.

Lemma splitext_spec p : ExtSplit p (fst (splitext p)) (snd (splitext p)).
Proof.
  destruct (last_component p) as (d & k & -> & Hk & Hd & Es).
  unfold splitext. rewrite Es.
  assert (Enil : slice (d ++ k) None (Some 0) = []) by exact (slice_to [] (d ++ k)).
  rewrite Enil.
  destruct (last_occ DOT k) as [Hn|(u & x & Ek & Hx)].
  - (* no dot in the name *)
    assert (Hdot : rfind DOT (d ++ k) <= len d - 1).
    { destruct (last_occ DOT d) as [Hn'|(u & x & -> & Hx)].
      - rewrite rfind_absent; [lia|]. rewrite in_app_iff. tauto.
      - rewrite <- app_assoc. cbn [app]. rewrite rfind_last by (rewrite in_app_iff; tauto).
        rewrite app_length. cbn [length]. lia. }
    assert (E : (rfind DOT (d ++ k) >? len d - 1) = false) by (rewrite Z.gtb_ltb; apply Z.ltb_ge; lia).
    rewrite E. cbn [andb fst snd]. right. repeat split.
    intros r' e' (Ep & x & d' & k' & -> & _ & Hx & -> & Hk' & Hd' & _).
    rewrite <- app_assoc in Ep. apply comp_unique in Ep as [_ ->]; auto.
    + apply Hn, in_or_app. right. now left.
    + rewrite in_app_iff. intros [?|[?|?]]; [auto|discriminate|auto].
  - subst k.
    assert (Hdot : rfind DOT (d ++ u ++ DOT :: x) = len (d ++ u)).
    { rewrite app_assoc. now apply rfind_last. }
    rewrite Hdot.
    assert (E : (len (d ++ u) >? len d - 1) = true).
    { rewrite Z.gtb_ltb. apply Z.ltb_lt. rewrite app_length. lia. }
    rewrite E. replace (len d - 1 + 1) with (len d) by lia.
    replace (Z.to_nat (len (d ++ u) - len d)) with (length u) by (rewrite app_length; lia).
    rewrite dot_loop_spec. cbn [andb].
    rewrite in_app_iff in Hk. cbn [In] in Hk.
    destruct (existsb (fun c => negb (N.eqb c DOT)) u) eqn:Eu; cbn [fst snd].
    + left. rewrite app_assoc, slice_to, slice_from. split; [reflexivity|].
      exists x, d, u. apply existsb_exists in Eu as (c & Hc & Ec).
      apply negb_true_iff, N.eqb_neq in Ec. repeat split; eauto; tauto.
    + right. repeat split.
      intros r' e' (Ep & x' & d' & k' & -> & Hx1 & Hx2 & -> & Hk' & Hd' & c & Hc & Ec).
      rewrite <- app_assoc in Ep. apply comp_unique in Ep as [_ Ek]; auto.
      * apply split_unique in Ek as [-> ->]; auto.
        assert (existsb (fun c => negb (N.eqb c DOT)) k' = true); [|congruence].
        apply existsb_exists. exists c. split; [exact Hc|].
        now apply negb_true_iff, N.eqb_neq.
      * rewrite in_app_iff. cbn [In]. tauto.
      * rewrite in_app_iff. intros [?|[?|?]]; [auto|discriminate|auto].
Qed.

Lemma ExtSplit_unique p r e r' e' : ExtSplit p r e -> ExtSplit p r' e' -> r = r' /\ e = e'.
Proof.
  intros [H|(-> & -> & H)] [H'|(-> & -> & H')]; [|now apply H' in H|now apply H in H'|auto].
  destruct H as (-> & x & d & k & -> & Hx & _).
  destruct H' as (E & x' & d' & k' & -> & Hx' & _).
  apply split_unique in E as [-> ->]; auto.
Qed.
