(** Proofs about entries. *)
From Coq Require Import List NArith ZArith Bool Lia Permutation Sorting.Sorted.
From Verif Require Import Py SortLib StrOrder PathModel PathSpec PathProofs EntryModel EntrySpec.
Import ListNotations.
Open Scope Z_scope.

Lemma join_names d n : d <> [] -> d <> [SLASH] -> name_ok n -> join d n = d ++ SLASH :: n.
Proof.
  intros H1 H2 [H3 _]. destruct d as [|x d]; [easy|]. destruct n; [easy|].
  apply str_eqb_neq in H2. unfold join. now rewrite H2.
Qed.

Lemma join_with_not_root l : l <> [] -> Forall name_ok l -> join_with [SLASH] l <> [SLASH].
Proof.
  intros Hn F E. destruct l as [|y [|z l]]; [easy| |];
    inversion F as [|? ? [Hy1 Hy2] _]; subst; cbn [join_with] in E.
  - subst. apply Hy2. now left.
  - destruct y as [|c y]; [easy|]. cbn in E. injection E as -> _. apply Hy2. now left.
Qed.

Lemma walk_relpath_names names : names <> [] -> Forall name_ok names ->
  walk_relpath names = join_with [SLASH] names.
Proof.
  intros Hn F. unfold walk_relpath. revert F Hn.
  induction names as [|n l IH] using rev_ind; intros F Hn; [easy|].
  apply Forall_app in F as [F Fn]. inversion Fn as [|? ? Hname _]; subst.
  rewrite fold_left_app. cbn [fold_left]. destruct l as [|y l].
  - reflexivity.
  - rewrite IH by (assumption || easy). rewrite join_with_snoc by easy.
    apply join_names; [now apply join_with_nonnil|now apply join_with_not_root|exact Hname].
Qed.

(** The path of an entry below [r]. *)
Definition path_below (r : str) (names : list str) : str :=
  if str_eqb r [DOT] then join_with [SLASH] names
  else if str_eqb r [SLASH] then SLASH :: join_with [SLASH] names
  else r ++ SLASH :: join_with [SLASH] names.

Lemma model_path r names : r <> [] -> names <> [] -> Forall name_ok names ->
  (if negb (str_eqb r [DOT]) then join r (walk_relpath names) else walk_relpath names)
  = path_below r names.
Proof.
  intros Hr Hn F. rewrite walk_relpath_names by assumption. unfold path_below.
  destruct (str_eqb r [DOT]); [reflexivity|]. cbn [negb].
  pose proof (join_with_nonnil names Hn F) as Hj.
  destruct r as [|x r]; [easy|]. unfold join.
  destruct (join_with [SLASH] names) eqn:E; [easy|].
  destruct (str_eqb (x :: r) [SLASH]) eqn:Es; [|reflexivity].
  apply str_eqb_eq in Es. now rewrite Es.
Qed.

(** The directory part. *)
Definition parent_path (r : str) (names : list str) : str :=
  match removelast names with
  | [] => if str_eqb r [DOT] then [] else r
  | l => path_below r l
  end.

Lemma path_below_inside r names : r <> [] -> names <> [] -> Forall name_ok names ->
  inside (parent_path r names) (last names []) (path_below r names) /\
  name_ok (last names []).
Proof.
  intros Hr Hn F. destruct (exists_last Hn) as (l & n & ->).
  apply Forall_app in F as [F Fn]. inversion Fn as [|? ? Hname _]; subst.
  rewrite last_last. split; [|exact Hname].
  unfold parent_path. rewrite removelast_last.
  destruct l as [|y l].
  - cbn [app]. unfold path_below, inside. cbn [join_with].
    destruct (str_eqb r [DOT]); [now left|].
    destruct (str_eqb r [SLASH]) eqn:E.
    + apply str_eqb_eq in E. right; left. auto.
    + apply str_eqb_neq in E. right; right. auto.
  - set (l' := y :: l) in *. assert (Hl : l' <> []) by easy.
    unfold path_below. rewrite join_with_snoc by exact Hl.
    pose proof (join_with_nonnil l' Hl F) as J1.
    pose proof (join_with_not_root l' Hl F) as J2.
    right; right. destruct (str_eqb r [DOT]); [auto|].
    destruct (str_eqb r [SLASH]) eqn:E.
    + split; [easy|]. split; [|reflexivity]. intros E'. injection E' as E'. contradiction.
    + split; [destruct r; easy|]. split; [|now rewrite <- app_assoc].
      destruct r as [|c [|c' r]]; [easy| |easy]. cbn. intros [= _ ?].
Qed.

Lemma split_inside d n p : inside d n p -> name_ok n -> split p = (d, n).
Proof.
  intros H [H1 H2]. destruct H as [[-> ->]|[[-> ->]|(Hd & Hr & ->)]].
  - now apply split_noslash.
  - exact (split_slash [] n H2).
  - rewrite split_slash by exact H2. now destruct d.
Qed.

Lemma mk_entry_ok sd names st : root sd <> [] -> names <> [] -> Forall name_ok names ->
  mk_entry sd (walk_relpath names) st =
  Ok (Entry sd (join_with [SLASH] names) st (path_below (root sd) names)
        (join (absroot sd) (join_with [SLASH] names))
        (parent_path (root sd) names) (last names []) (starts_with [DOT] (last names []))).
Proof.
  intros Hr Hn F. unfold mk_entry. rewrite model_path by assumption.
  destruct (path_below_inside _ _ Hr Hn F) as [Hi Hname].
  rewrite (split_inside _ _ _ Hi Hname). rewrite walk_relpath_names by assumption.
  destruct Hname as [Hne _]. destruct (last names []) as [|c t]; [easy|].
  cbn [starts_with]. now rewrite andb_true_r, N.eqb_sym.
Qed.

Lemma count_slash_noslash n : ~ In SLASH n -> filter (N.eqb SLASH) n = [].
Proof.
  induction n as [|c n IH]; intros H; cbn [filter]; [reflexivity|].
  destruct (N.eqb_spec SLASH c); [subst; cbn in H; tauto|]. apply IH. cbn in H. tauto.
Qed.
Lemma count_slash_join l : Forall name_ok l ->
  length (filter (N.eqb SLASH) (join_with [SLASH] l)) = (length l - 1)%nat.
Proof.
  induction l as [|x [|y l] IH]; intros F; inversion F as [|? ? [_ Hx] F']; subst; [reflexivity| |].
  - cbn [join_with]. now rewrite count_slash_noslash.
  - change (join_with [SLASH] (x :: y :: l)) with (x ++ [SLASH] ++ join_with [SLASH] (y :: l)).
    rewrite !filter_app, count_slash_noslash by exact Hx. specialize (IH F').
    change (filter (N.eqb SLASH) [SLASH]) with [SLASH].
    rewrite !app_length. unfold char, str in *. cbn [length] in *. rewrite IH. lia.
Qed.

(** The dotted extension: what splitext removes. *)
Lemma ext_dotted e : exists x, splitext (e_path e) = (e_pathx e, x) /\ e_path e = e_pathx e ++ x /\
  ((x = [] /\ e_ext e = []) \/ x = DOT :: e_ext e) /\ ~ In SLASH x.
Proof.
  unfold e_pathx, e_ext. pose proof (splitext_spec (e_path e)) as H.
  destruct (splitext (e_path e)) as [r x]. cbn [fst snd] in *. exists x.
  split; [reflexivity|]. destruct H as [(E & y & d & k & -> & _ & Hy & _)|(-> & -> & _)].
  - split; [exact E|]. split; [right|intros [?|?]; [discriminate|auto]].
    f_equal. symmetry. exact (slice_from [DOT] y).
  - split; [symmetry; apply app_nil_r|]. split; [left; split; reflexivity|intros []].
Qed.

Lemma os_basename_noslash p : ~ In SLASH p -> os_basename p = p.
Proof. intros H. unfold os_basename. rewrite rfind_absent by exact H. exact (slice_from [] p). Qed.
Lemma os_basename_slash a b : ~ In SLASH b -> os_basename (a ++ SLASH :: b) = b.
Proof.
  intros H. unfold os_basename. rewrite rfind_last by exact H.
  replace (len a + 1) with (len (a ++ [SLASH])) by (rewrite app_length; cbn [length]; lia).
  replace (a ++ SLASH :: b) with ((a ++ [SLASH]) ++ b) by now rewrite <- app_assoc.
  apply slice_from.
Qed.

Lemma inside_prefix d n p : inside d n p -> exists q, p = q ++ n /\ (q = [] \/ exists q', q = q' ++ [SLASH]).
Proof.
  intros [[-> ->]|[[-> ->]|(_ & _ & ->)]].
  - exists []. auto.
  - exists [SLASH]. split; [reflexivity|]. right. now exists [].
  - exists (d ++ [SLASH]). rewrite <- app_assoc. eauto.
Qed.

(** The base name without extension: name = namex ++ dotted extension. *)
Lemma namex_ext e d n : inside d n (e_path e) -> name_ok n ->
  n = e_namex e ++ snd (splitext (e_path e)).
Proof.
  intros Hi [Hn1 Hn2]. unfold e_namex, e_pathx.
  pose proof (splitext_spec (e_path e)) as H.
  destruct (inside_prefix _ _ _ Hi) as (q & Eq & Hq).
  destruct (splitext (e_path e)) as [r x]. cbn [fst snd] in *.
  assert (Hb : forall q k, ~ In SLASH k -> (q = [] \/ exists q', q = q' ++ [SLASH]) -> os_basename (q ++ k) = k).
  { intros q0 k Hk [->|[q' ->]]; [now apply os_basename_noslash|].
    rewrite <- app_assoc. now apply os_basename_slash. }
  destruct H as [(E & y & d' & k & -> & _ & Hy & -> & Hk & Hd' & _)|(-> & -> & _)].
  - rewrite Hb by assumption. rewrite Eq, <- app_assoc in E.
    apply comp_unique in E as [_ E]; auto.
    rewrite in_app_iff. intros [?|[?|?]]; [auto|discriminate|auto].
  - rewrite Eq, Hb, app_nil_r by assumption. reflexivity.
Qed.

(** hidden *)
Lemma split_on_app_gen c a b : split_on c (a ++ c :: b) = split_on c a ++ split_on c b.
Proof.
  induction a as [|x a IH]; cbn [app split_on].
  - now rewrite N.eqb_refl.
  - destruct (N.eqb x c); [now rewrite IH|]. rewrite IH.
    pose proof (split_on_nonnil c a). now destruct (split_on c a).
Qed.
Lemma names_split names : names <> [] -> Forall name_ok names ->
  split_on SLASH (join_with [SLASH] names) = names.
Proof.
  intros Hn F. apply split_join; [exact Hn|]. intros x Hx.
  rewrite Forall_forall in F. now apply F.
Qed.
Lemma hidden_path r names : r <> [] -> names <> [] -> Forall name_ok names ->
  existsb (fun part => starts_with [DOT] part) (split_on SLASH (path_below r names)) =
  (negb (str_eqb r [DOT]) && existsb (fun part => starts_with [DOT] part) (split_on SLASH r))
  || existsb (fun part => starts_with [DOT] part) names.
Proof.
  intros Hr Hn F. unfold path_below. destruct (str_eqb r [DOT]).
  - now rewrite names_split.
  - destruct (str_eqb r [SLASH]) eqn:E.
    + apply str_eqb_eq in E. subst r.
      change (SLASH :: join_with [SLASH] names) with ([] ++ SLASH :: join_with [SLASH] names).
      rewrite split_on_app_gen, names_split by assumption. reflexivity.
    + rewrite split_on_app_gen, names_split by assumption. now rewrite existsb_app.
Qed.
Lemma dotted_iff n : starts_with [DOT] n = true <-> dotted n.
Proof. rewrite starts_with_iff. reflexivity. Qed.
Lemma existsb_dotted l : existsb (fun part => starts_with [DOT] part) l = true <-> Exists dotted l.
Proof.
  rewrite existsb_exists, Exists_exists. split; intros (x & H1 & H2); exists x; split; auto;
    now apply dotted_iff.
Qed.

(** Modes *)
Lemma S_IFMT_eq m : S_IFMT m = ((m / 4096) mod 16) * 4096.
Proof.
  unfold S_IFMT. change 61440 with (Z.shiftl (Z.ones 4) 12).
  change 4096 with (2 ^ 12). change 16 with (2 ^ 4).
  rewrite <- Z.shiftr_div_pow2, <- Z.land_ones, <- Z.shiftl_mul_pow2 by lia.
  apply Z.bits_inj'. intros n Hn.
  rewrite Z.land_spec. destruct (Z.ltb_spec n 12).
  - rewrite !Z.shiftl_spec_low by lia. now rewrite andb_false_r.
  - rewrite !Z.shiftl_spec by lia. rewrite Z.land_spec, Z.shiftr_spec by lia.
    now replace (n - 12 + 12) with n by lia.
Qed.
Lemma type_of_mode_spec m : type_of_mode m = format_name ((m / 4096) mod 16).
Proof.
  unfold type_of_mode, S_ISDIR, S_ISREG, S_ISLNK, S_ISSOCK, S_ISFIFO, S_ISCHR, S_ISBLK.
  rewrite S_IFMT_eq. pose proof (Z.mod_pos_bound (m / 4096) 16 ltac:(lia)) as B.
  set (f := (m / 4096) mod 16) in *. clearbody f.
  assert (H : In f [0;1;2;3;4;5;6;7;8;9;10;11;12;13;14;15]) by (cbn; lia).
  cbn [In] in H. repeat (destruct H as [<-|H]; [reflexivity|]). destruct H.
Qed.
Lemma format_documented f : In (format_name f) documented_types.
Proof.
  unfold format_name. repeat match goal with
  | |- In (match ?x with _ => _ end) _ => destruct x
  end; unfold documented_types; cbn [In]; tauto.
Qed.
Lemma perm_of_spec m : perm_of m = m mod 4096.
Proof. unfold perm_of, MODE_ALL. exact (Z.land_ones m 12 ltac:(lia)). Qed.
Lemma size_of_spec st :
  size_of st = if ((st_mode st / 4096) mod 16 =? 8) then st_size st else 0.
Proof.
  unfold size_of, S_ISREG. rewrite S_IFMT_eq.
  destruct (Z.eqb_spec ((st_mode st / 4096) mod 16) 8) as [->|H]; [reflexivity|].
  destruct (Z.eqb_spec ((st_mode st / 4096) mod 16 * 4096) 32768); [lia|reflexivity].
Qed.
Lemma exec_bits m :
  (Z.lor (Z.lor (Z.land (perm_of m) 64) (Z.land (perm_of m) 8)) (Z.land (perm_of m) 1) >? 0)
  = Z.testbit m 0 || Z.testbit m 3 || Z.testbit m 6.
Proof.
  rewrite <- !Z.land_lor_distr_r. unfold perm_of. rewrite <- Z.land_assoc.
  change (Z.land MODE_ALL (Z.lor (Z.lor 64 8) 1)) with 73.
  set (v := Z.land m 73).
  assert (Hv : 0 <= v) by (apply Z.land_nonneg; lia).
  assert (E : v = 0 <-> Z.testbit m 0 || Z.testbit m 3 || Z.testbit m 6 = false).
  { unfold v. split.
    - intros E. assert (T : forall n, Z.testbit 73 n = true -> Z.testbit m n = false).
      { intros n Hn. pose proof (Z.land_spec m 73 n) as L. rewrite E, Z.bits_0, Hn in L.
        rewrite andb_true_r in L. now symmetry. }
      rewrite !T by reflexivity. reflexivity.
    - rewrite !orb_false_iff. intros [[E0 E3] E6]. apply Z.bits_inj'. intros n Hn.
      rewrite Z.land_spec, Z.bits_0. destruct (Z.ltb_spec n 7).
      + assert (H' : In n [0;1;2;3;4;5;6]) by (cbn; lia). cbn [In] in H'.
        repeat (destruct H' as [<-|H']; [cbn [Z.testbit] in *; rewrite ?E0, ?E3, ?E6, ?andb_false_r; reflexivity|]).
        destruct H'.
      + rewrite (Z.bits_above_log2 73) by (cbn; lia). apply andb_false_r. }
  rewrite Z.gtb_ltb.
  destruct (Z.testbit m 0 || Z.testbit m 3 || Z.testbit m 6) eqn:B.
  - apply Z.ltb_lt. destruct (Z.eq_dec v 0) as [H|H]; [apply E in H; discriminate|lia].
  - apply Z.ltb_ge. rewrite (proj2 E eq_refl). lia.
Qed.
Lemma executable_spec m : executable_of m = true <->
  (m / 4096) mod 16 <> 4 /\ (m / 4096) mod 16 <> 10 /\
  (Z.testbit m 0 = true \/ Z.testbit m 3 = true \/ Z.testbit m 6 = true).
Proof.
  unfold executable_of. rewrite exec_bits, type_of_mode_spec.
  pose proof (Z.mod_pos_bound (m / 4096) 16 ltac:(lia)) as B.
  set (f := (m / 4096) mod 16) in *. clearbody f.
  assert (Ed : str_eqb (format_name f) ($"directory") = (f =? 4) /\
               str_eqb (format_name f) ($"symlink") = (f =? 10)).
  { assert (H : In f [0;1;2;3;4;5;6;7;8;9;10;11;12;13;14;15]) by (cbn; lia).
    cbn [In] in H. repeat (destruct H as [<-|H]; [split; reflexivity|]). destruct H. }
  destruct Ed as [-> ->].
  destruct (Z.eqb_spec f 4); cbn [orb]; [split; [discriminate|intros (? & _); contradiction]|].
  destruct (Z.eqb_spec f 10); [split; [discriminate|intros (_ & ? & _); contradiction]|].
  rewrite !orb_true_iff. tauto.
Qed.

(** Mountpoints *)
Lemma mount_leb_total a b : mount_leb a b = true \/ mount_leb b a = true.
Proof.
  destruct a as [[a1 a2] a3], b as [[b1 b2] b3]. unfold mount_leb.
  destruct (str_eqb a1 b1) eqn:E1.
  - apply str_eqb_eq in E1. subst. rewrite str_eqb_refl.
    destruct (str_eqb a2 b2) eqn:E2.
    + apply str_eqb_eq in E2. subst. rewrite str_eqb_refl. apply str_leb_total.
    + assert (E2' : str_eqb b2 a2 = false) by (apply str_eqb_neq; apply str_eqb_neq in E2; congruence).
      rewrite E2'. apply str_leb_total.
  - assert (E1' : str_eqb b1 a1 = false) by (apply str_eqb_neq; apply str_eqb_neq in E1; congruence).
    rewrite E1'. apply str_leb_total.
Qed.
Lemma lex_trans (a b c : str) (x y z : bool) :
  (if str_eqb a b then x else str_leb a b) = true ->
  (if str_eqb b c then y else str_leb b c) = true ->
  (x = true -> y = true -> z = true) ->
  (if str_eqb a c then z else str_leb a c) = true.
Proof.
  intros H1 H2 H3.
  destruct (str_eqb a b) eqn:E1; [apply str_eqb_eq in E1; subst b|].
  - destruct (str_eqb a c) eqn:E2; auto.
  - destruct (str_eqb b c) eqn:E2; [apply str_eqb_eq in E2; subst c; now rewrite E1|].
    destruct (str_eqb a c) eqn:E3; [|now apply str_leb_trans with b].
    apply str_eqb_eq in E3. subst c. apply str_eqb_neq in E1. exfalso. apply E1.
    now apply str_leb_antisym.
Qed.
Lemma mount_leb_trans a b c : mount_leb a b = true -> mount_leb b c = true -> mount_leb a c = true.
Proof.
  destruct a as [[a1 a2] a3], b as [[b1 b2] b3], c as [[c1 c2] c3]. unfold mount_leb.
  intros H1 H2. eapply lex_trans; [exact H1|exact H2|]. intros K1 K2.
  eapply lex_trans; [exact K1|exact K2|]. apply str_leb_trans.
Qed.
Lemma mount_leb_path a b : mount_leb a b = true -> str_leb (m_path a) (m_path b) = true.
Proof.
  destruct a as [[a1 a2] a3], b as [[b1 b2] b3]. unfold mount_leb, m_path. cbn [fst].
  destruct (str_eqb a1 b1) eqn:E; [|auto]. apply str_eqb_eq in E. subst. intros _. apply str_leb_refl.
Qed.

Lemma mount_get_first l p :
  StronglySorted (fun a b => mount_leb b a = true) l ->
  (exists m, In m l /\ starts_with (m_path m) p = true) ->
  In (mount_get l p) l /\ starts_with (m_path (mount_get l p)) p = true /\
  forall m, In m l -> starts_with (m_path m) p = true -> (length (m_path m) <= length (m_path (mount_get l p)))%nat.
Proof.
  induction l as [|[[mp dev] fs] l IH]; intros S [m0 [H0 P0]]; [destruct H0|].
  apply StronglySorted_inv in S as [S F]. cbn [mount_get].
  assert (E : str_eqb mp p || starts_with mp p = starts_with mp p).
  { destruct (str_eqb mp p) eqn:E; [|reflexivity]. apply str_eqb_eq in E. subst. cbn.
    symmetry. apply starts_with_iff. exists []. now rewrite app_nil_r. }
  rewrite E. destruct (starts_with mp p) eqn:Ep.
  - split; [now left|]. split; [exact Ep|]. intros m [<-|Hm] Pm; [reflexivity|].
    rewrite Forall_forall in F. apply F, mount_leb_path in Hm.
    now apply (str_leb_prefix _ _ p).
  - destruct H0 as [<-|H0]; [unfold m_path in P0; cbn in P0; congruence|].
    destruct (IH S (ex_intro _ m0 (conj H0 P0))) as (I1 & I2 & I3).
    split; [now right|]. split; [exact I2|]. intros m [<-|Hm] Pm; [|auto].
    unfold m_path in Pm. cbn in Pm. congruence.
Qed.

(** A mountpoint as the kernel writes it. *)
Lemma rstrip_normal p : normal p -> p <> [SLASH] -> rstrip_p (N.eqb SLASH) p = p.
Proof.
  intros H Hr. destruct (normal_last p H Hr) as (q & c & -> & Hc).
  apply rstrip_p_id. rewrite rev_app_distr. cbn [rev app]. apply N.eqb_neq. congruence.
Qed.
Lemma mount_prefix mp t p : normal mp -> p = SLASH :: t -> p <> mp ->
  (starts_with (rstrip_p (N.eqb SLASH) mp ++ [SLASH]) p = true <-> contains mp p).
Proof.
  intros Hm Ep Hne. rewrite starts_with_iff.
  destruct (list_eq_dec N.eq_dec mp [SLASH]) as [->|Hr].
  - change (rstrip_p (N.eqb SLASH) [SLASH] ++ [SLASH]) with [SLASH].
    split; [now left|]. intros _. now exists t.
  - rewrite rstrip_normal by assumption. split.
    + intros [u ->]. right; right. exists u. now rewrite <- app_assoc.
    + intros [?|[?|[u ->]]]; [contradiction|contradiction|]. exists u. now rewrite <- app_assoc.
Qed.

Lemma nearest_mount lines p t :
  p = SLASH :: t ->
  (forall m, In m lines -> normal (m_path m) /\ p <> m_path m) ->
  (exists m, In m lines /\ contains (m_path m) p) ->
  exists m, nearest lines p m /\
    mount_get (mountpoints lines) p =
    (rstrip_p (N.eqb SLASH) (m_path m) ++ [SLASH], snd (fst m), snd m).
Proof.
  intros Ep Hn [m0 [H0 C0]].
  set (f := fun '(mpath, dev, fs) => (rstrip_p (N.eqb SLASH) mpath ++ [SLASH], dev, fs) : mount).
  assert (Hin : forall x, In x (mountpoints lines) <-> exists m, In m lines /\ x = f m).
  { intros x. unfold mountpoints. split.
    - intros H. apply (Permutation_in _ (Permutation_sym (sort_reverse_perm mount_leb _))) in H.
      apply in_map_iff in H as (m & <- & Hm). now exists m.
    - intros (m & Hm & ->). apply (Permutation_in _ (sort_reverse_perm mount_leb _)).
      apply in_map_iff. now exists m. }
  assert (Hp : forall m, m_path (f m) = rstrip_p (N.eqb SLASH) (m_path m) ++ [SLASH]).
  { intros [[? ?] ?]. reflexivity. }
  destruct (mount_get_first (mountpoints lines) p) as (I1 & I2 & I3).
  - apply sort_reverse_sorted; [exact mount_leb_total|exact mount_leb_trans].
  - exists (f m0). split; [apply Hin; eauto|]. rewrite Hp.
    destruct (Hn m0 H0). now apply (mount_prefix _ t).
  - apply Hin in I1 as (m & Hm & E). exists m. split.
    + split; [exact Hm|]. rewrite E, Hp in I2, I3. destruct (Hn m Hm) as [N1 N2].
      split; [now apply (mount_prefix _ t)|].
      intros m' Hm' C'. destruct (Hn m' Hm') as [N1' N2'].
      assert (L : (length (rstrip_p (N.eqb SLASH) (m_path m') ++ [SLASH]) <=
                   length (rstrip_p (N.eqb SLASH) (m_path m) ++ [SLASH]))%nat).
      { rewrite <- (Hp m'). apply I3; [apply Hin; eauto|]. rewrite Hp. now apply (mount_prefix _ t). }
      rewrite !app_length in L. cbn [length] in L.
      change (fst (fst m')) with (m_path m'). change (fst (fst m)) with (m_path m).
      destruct (list_eq_dec N.eq_dec (m_path m') [SLASH]) as [E'|R'].
      * rewrite E'. pose proof (normal_nonnil _ N1). destruct (m_path m); [easy|cbn; lia].
      * rewrite (rstrip_normal _ N1' R') in L.
        destruct (list_eq_dec N.eq_dec (m_path m) [SLASH]) as [E''|R''].
        -- rewrite E'' in L. cbn in L. rewrite E''. cbn. lia.
        -- rewrite (rstrip_normal _ N1 R'') in L. lia.
    + rewrite E. destruct m as [[? ?] ?]. reflexivity.
Qed.

(** Packaged statements. *)
Lemma entry_paths sd names st : root sd <> [] -> names <> [] -> Forall name_ok names ->
  exists e, mk_entry sd (walk_relpath names) st = Ok e /\
    e_relpath e = join_with [SLASH] names /\
    (root sd = [DOT] -> e_path e = e_relpath e) /\
    (root sd <> [DOT] -> inside (root sd) (e_relpath e) (e_path e)) /\
    e_name e = last names [] /\
    inside (e_dir e) (e_name e) (e_path e) /\
    e_depth e = (length names - 1)%nat /\
    exists x, ((x = [] /\ e_ext e = []) \/ x = DOT :: e_ext e) /\
      e_path e = e_pathx e ++ x /\ e_name e = e_namex e ++ x.
Proof.
  intros Hr Hn F. eexists. split; [now apply mk_entry_ok|]. cbn [e_relpath e_path e_name e_dir].
  destruct (path_below_inside _ _ Hr Hn F) as [Hi Hname].
  split; [reflexivity|]. split; [|split; [|split; [reflexivity|split; [exact Hi|split]]]].
  - intros ->. reflexivity.
  - intros Hd. unfold path_below. apply str_eqb_neq in Hd. rewrite Hd.
    destruct (str_eqb (root sd) [SLASH]) eqn:E; unfold inside.
    + apply str_eqb_eq in E. right; left. auto.
    + apply str_eqb_neq in E. right; right. auto.
  - unfold e_depth. cbn [e_relpath]. now apply count_slash_join.
  - match goal with |- context [e_ext ?e] => set (e0 := e) end.
    destruct (ext_dotted e0) as (x & E1 & E2 & E3 & _). exists x.
    split; [exact E3|]. split; [exact E2|].
    pose proof (namex_ext e0 _ _ Hi Hname) as K. rewrite E1 in K. exact K.
Qed.

Lemma entry_parent sd names n st st' : root sd <> [] -> names <> [] ->
  Forall name_ok names -> name_ok n ->
  exists p e, mk_entry sd (walk_relpath names) st = Ok p /\
    mk_entry sd (walk_relpath (names ++ [n])) st' = Ok e /\ e_dir e = e_path p.
Proof.
  intros Hr Hn F Hname. do 2 eexists. split; [now apply mk_entry_ok|].
  split; [apply mk_entry_ok; [exact Hr|now destruct names|]|].
  - apply Forall_app. split; [exact F|]. now constructor.
  - cbn [e_dir e_path]. unfold parent_path. rewrite removelast_last. now destruct names.
Qed.

Lemma entry_hide sd names st e : root sd <> [] -> names <> [] -> Forall name_ok names ->
  mk_entry sd (walk_relpath names) st = Ok e ->
  (e_hide e = true <-> dotted (last names [])).
Proof.
  intros Hr Hn F. rewrite mk_entry_ok by assumption. intros [= <-]. cbn [e_hide].
  apply dotted_iff.
Qed.
Lemma entry_hidden sd names st e : root sd <> [] -> names <> [] -> Forall name_ok names ->
  mk_entry sd (walk_relpath names) st = Ok e ->
  (e_hidden e = true <->
   (root sd <> [DOT] /\ Exists dotted (split_on SLASH (root sd))) \/ Exists dotted names).
Proof.
  intros Hr Hn F. rewrite mk_entry_ok by assumption. intros [= <-].
  unfold e_hidden. cbn [e_path]. rewrite hidden_path by assumption.
  rewrite orb_true_iff, andb_true_iff, negb_true_iff, str_eqb_neq, !existsb_dotted. tauto.
Qed.
Lemma entry_hidden_plain sd names st e : root sd <> [] -> names <> [] -> Forall name_ok names ->
  (root sd = [DOT] \/ ~ Exists dotted (split_on SLASH (root sd))) ->
  mk_entry sd (walk_relpath names) st = Ok e ->
  (e_hidden e = true <-> Exists dotted names).
Proof. intros. rewrite entry_hidden by eassumption. tauto. Qed.
Lemma hidden_dotdot : exists sd names st e,
  root sd <> [] /\ names <> [] /\ Forall name_ok names /\
  mk_entry sd (walk_relpath names) st = Ok e /\
  ~ Exists dotted names /\ e_hidden e = true.
Proof.
  exists (Start ($"..") ($"/home") 0), [$"file"], (Status 33188 0 0).
  eexists. split; [easy|]. split; [easy|]. split.
  - constructor; [|constructor]. split; [easy|]. apply has_char_false. reflexivity.
  - split; [reflexivity|]. split; [|reflexivity].
    rewrite <- existsb_dotted. discriminate.
Qed.

Lemma mode_types m st : st_mode st = m ->
  type_of_mode m = format_name ((m / 4096) mod 16) /\
  In (type_of_mode m) documented_types /\
  size_of st = (if ((m / 4096) mod 16 =? 8) then st_size st else 0) /\
  perm_of m = m mod 4096 /\
  (executable_of m = true <->
   (m / 4096) mod 16 <> 4 /\ (m / 4096) mod 16 <> 10 /\
   (Z.testbit m 0 = true \/ Z.testbit m 3 = true \/ Z.testbit m 6 = true)).
Proof.
  intros <-. split; [apply type_of_mode_spec|].
  split; [rewrite type_of_mode_spec; apply format_documented|].
  split; [apply size_of_spec|]. split; [apply perm_of_spec|apply executable_spec].
Qed.

Lemma mount_itself_wrong : exists lines p m,
  nearest lines p m /\ (forall m', nearest lines p m' -> m' = m) /\
  snd (fst (mount_get (mountpoints lines) p)) <> snd (fst m).
Proof.
  exists [($"/", $"sda", $"ext4"); ($"/mnt", $"sdb", $"xfs")], ($"/mnt"), ($"/mnt", $"sdb", $"xfs").
  split; [|split].
  - split; [cbn; auto|]. split; [right; now left|].
    intros m [<-|[<-|[]]] _; cbn; lia.
  - intros m (Hin & _ & Hmax). destruct Hin as [<-|[<-|[]]]; [|reflexivity].
    specialize (Hmax _ (or_intror (or_introl eq_refl)) (or_intror (or_introl eq_refl))).
    cbn in Hmax. lia.
  - discriminate.
Qed.
Lemma mount_stacked_wrong : exists l1 m1 m2 p,
  m_path m1 = m_path m2 /\ nearest (l1 ++ [m1; m2]) p m2 /\
  snd (fst (mount_get (mountpoints (l1 ++ [m1; m2])) p)) = snd (fst m1) /\
  snd (fst m1) <> snd (fst m2).
Proof.
  exists [], ($"/mnt", $"sdb", $"xfs"), ($"/mnt", $"sda", $"ext4"), ($"/mnt/f").
  split; [reflexivity|]. split; [|split; [reflexivity|discriminate]].
  split; [cbn; auto|]. split; [right; right; now exists ($"f")|].
  intros m [<-|[<-|[]]] _; cbn; lia.
Qed.
