(** The elf plugin *)
From Coq Require Import List NArith ZArith Bool Lia Permutation Sorted.
From Verif Require Import Py TypeModel SortLib StrOrder PluginModel ElfModel ElfSpec.
Import ListNotations.
Open Scope N_scope.

Lemma before_iff a : forall b, str_leb a b = true <-> Before a b.
Proof.
  induction a as [|x a IH]; intros [|y b]; cbn [str_leb].
  - split; [constructor|reflexivity].
  - split; [constructor|reflexivity].
  - split; [discriminate|intros H; inversion H].
  - destruct (N.ltb x y) eqn:L.
    + apply N.ltb_lt in L. split; [now constructor|reflexivity].
    + apply N.ltb_ge in L. destruct (N.ltb y x) eqn:E.
      * apply N.ltb_lt in E. split; [discriminate|]. intros H. inversion H; subst; lia.
      * apply N.ltb_ge in E. assert (x = y) by lia. subst y. rewrite IH. split; [now constructor|]. intros H. inversion H; subst; [lia|assumption].
Qed.
Lemma names_iff ss : forall l, Names ss l <-> l = fst (extract_sonames ss End).
Proof.
  unfold extract_sonames. cbn [fst]. intros l. split.
  - induction 1 as [|ss l _ IH|ss l _ IH|n tags ss l _ IH|t n tags ss l N _ IH]; cbn [flat_map needed app] in *; try congruence.
    + rewrite str_eqb_refl. cbn [app]. now rewrite <- IH.
    + destruct (str_eqb t ($"DT_NEEDED")) eqn:E; [apply str_eqb_eq in E; contradiction|]. exact IH.
  - intros ->. induction ss as [|[tags|] ss IH]; cbn [flat_map]; [constructor| |now constructor].
    induction tags as [|[t n] tags IHt]; cbn [needed app]; [now constructor|].
    destruct (str_eqb t ($"DT_NEEDED")) eqn:E.
    + apply str_eqb_eq in E. subst t. cbn [app]. now constructor.
    + constructor; [|exact IHt]. intros ->. now rewrite str_eqb_refl in E.
Qed.
Lemma magic_iff f c : is_elf f c = true <-> f = true /\ exists s, c = Some s /\ Magic s.
Proof.
  unfold is_elf. rewrite andb_true_iff. split; intros [-> H]; (split; [reflexivity|]).
  - destruct c as [s|]; [|discriminate]. exists s. split; [reflexivity|]. apply str_eqb_eq in H. exists (skipn 4 s). rewrite <- H. symmetry. apply firstn_skipn.
  - destruct H as (s & -> & t & ->). reflexivity.
Qed.
Lemma elf_names s ss l : Magic s -> Names ss l ->
  exists m, get_value (elf true (Some s) ss End) ($"sonames") = Ok (VList m) /\ Permutation l m /\ StronglySorted Before m.
Proof.
  intros M N. apply names_iff in N. exists (isort str_leb l).
  assert (E : is_elf true (Some s) = true) by (apply magic_iff; eauto).
  split; [|split; [apply isort_perm|]].
  - unfold get_value, get_data, get_data_from_plugin, elf. cbn [p_handles p_cached p_process]. rewrite E.
    unfold extract_sonames in *. cbn [fst] in N. rewrite <- N. reflexivity.
  - pose proof (isort_sorted str_leb str_leb_total str_leb_trans l) as S. induction S as [|x m S IH F]; constructor; [exact IH|].
    eapply Forall_impl; [|exact F]. intros y. apply before_iff.
Qed.
Lemma elf_unique l m m' : Permutation l m -> StronglySorted Before m -> Permutation l m' -> StronglySorted Before m' -> m = m'.
Proof.
  intros P S P' S'. assert (X : forall k, StronglySorted Before k -> StronglySorted (le str_leb) k).
  { intros k. induction 1 as [|x k K IH F]; constructor; [exact IH|]. eapply Forall_impl; [|exact F]. intros y. apply before_iff. }
  apply (sorted_perm_unique str_leb str_leb_total); [now apply X|now apply X|now rewrite <- P, <- P'|].
  intros a b _ _ E. apply andb_true_iff in E as [E1 E2]. now apply str_leb_antisym.
Qed.
Lemma elf_other f c ss e : ~ (f = true /\ exists s, c = Some s /\ Magic s) -> get_data (elf f c ss e) = Ok [].
Proof.
  intros H. rewrite <- magic_iff in H. apply not_true_iff_false in H. unfold get_data, get_data_from_plugin, elf. cbn [p_handles]. now rewrite H.
Qed.
Lemma elf_damaged f c ss e : e = ElfOSError \/ e = ELFError -> get_data (elf f c ss e) = Ok [].
Proof.
  intros H. unfold get_data, get_data_from_plugin, elf. cbn [p_handles p_cached]. destruct (is_elf f c); [|reflexivity].
  destruct H as [-> | ->]; reflexivity.
Qed.
Lemma elf_fails s ss : Magic s -> get_data (elf true (Some s) ss ElfUnhandled) = Err PluginErr.
Proof.
  intros M. assert (E : is_elf true (Some s) = true) by (apply magic_iff; eauto).
  unfold get_data, get_data_from_plugin, elf. cbn [p_handles p_cached]. now rewrite E.
Qed.
