From Coq Require Import List NArith ZArith Bool Lia Permutation.
From Verif Require Import Py TypeModel RegistryModel RegistrySpec TestModel.
Import ListNotations.

Lemma load_app found p : load_plugins (found ++ [p]) = register_plugin (load_plugins found) p.
Proof. unfold load_plugins. now rewrite fold_left_app. Qed.
Lemma load_names found n : In n (map p_name (load_plugins found)) <-> In n (map p_name found).
Proof.
  revert n. induction found as [|p found IH] using rev_ind; intros n; [reflexivity|].
  rewrite load_app, map_app, in_app_iff. unfold register_plugin.
  destruct (str_in (p_name p) (map p_name (load_plugins found))) eqn:E.
  - rewrite IH. apply str_in_iff in E. rewrite IH in E. cbn. intuition; subst; auto.
  - rewrite map_app, in_app_iff, IH. reflexivity.
Qed.
Lemma load_in found p : In p (load_plugins found) <-> Loaded found p.
Proof.
  induction found as [|q found IH] using rev_ind.
  - split; [intros []|]. intros (b & a & E & _). now destruct b.
  - rewrite load_app. unfold register_plugin.
    destruct (str_in (p_name q) (map p_name (load_plugins found))) eqn:E.
    + rewrite IH. apply str_in_iff in E. rewrite load_names in E. split.
      * intros (b & a & -> & H). exists b, (a ++ [q]). rewrite <- app_assoc. auto.
      * intros (b & a & H & Hn). destruct a as [|x a] using rev_ind.
        -- apply app_inj_tail in H as [-> ->]. tauto.
        -- rewrite app_comm_cons, app_assoc in H. apply app_inj_tail in H as [-> _]. exists b, a. auto.
    + apply not_true_iff_false in E. rewrite str_in_iff, load_names in E.
      rewrite in_app_iff, IH. split.
      * intros [(b & a & -> & H)|[<-|[]]].
        -- exists b, (a ++ [q]). rewrite <- app_assoc. auto.
        -- exists found, []. auto.
      * intros (b & a & H & Hn). destruct a as [|x a] using rev_ind.
        -- apply app_inj_tail in H as [-> ->]. right. now left.
        -- rewrite app_comm_cons, app_assoc in H. apply app_inj_tail in H as [-> _]. left. exists b, a. auto.
Qed.
Lemma load_nodup found : NoDup (map p_name (load_plugins found)).
Proof.
  induction found as [|p found IH] using rev_ind; [constructor|].
  rewrite load_app. unfold register_plugin.
  destruct (str_in (p_name p) (map p_name (load_plugins found))) eqn:E; [exact IH|].
  apply not_true_iff_false in E. rewrite str_in_iff in E. rewrite map_app. cbn [map].
  apply NoDup_rev in IH. rewrite <- (rev_involutive (map p_name (load_plugins found) ++ [p_name p])).
  apply NoDup_rev. rewrite rev_app_distr. cbn [rev app]. constructor; [|exact IH]. now rewrite <- in_rev.
Qed.

Lemma find_attr_iff n p : (exists t, find_attr n p = Some t) <-> In n (map fst (p_attrs p)).
Proof.
  unfold find_attr. rewrite in_map_iff. split.
  - intros [t H]. destruct (find _ (p_attrs p)) as [[k t']|] eqn:E; [|discriminate].
    apply find_some in E as [E1 E2]. apply str_eqb_eq in E2. exists (k, t'). auto.
  - intros ([k t] & <- & H). destruct (find (fun a => str_eqb (fst a) k) (p_attrs p)) as [[k' t']|] eqn:E.
    + cbn. rewrite E. eexists. reflexivity.
    + eapply find_none in E; [|exact H]. cbn in E. now rewrite str_eqb_refl in E.
Qed.
Lemma for_attribute found pl n : In pl (get_plugin_for_attribute (load_plugins found) n) <-> Provides found pl n.
Proof.
  unfold get_plugin_for_attribute, Provides. rewrite in_map_iff. split.
  - intros (p & <- & H). apply filter_In in H as [H1 H2]. exists p. rewrite <- load_in. split; [exact H1|].
    split; [reflexivity|]. apply find_attr_iff. destruct (find_attr n p); [eauto|discriminate].
  - intros (p & H1 & <- & H2). exists p. split; [reflexivity|]. apply filter_In. rewrite load_in. split; [exact H1|].
    apply find_attr_iff in H2 as [t ->]. reflexivity.
Qed.
Lemma for_attribute_nodup found n : NoDup (get_plugin_for_attribute (load_plugins found) n).
Proof.
  unfold get_plugin_for_attribute. assert (H := load_nodup found).
  induction (load_plugins found) as [|p l IH]; [constructor|]. cbn [map filter] in *.
  inversion H as [|? ? H1 H2]; subst. destruct (find_attr n p); [|auto]. cbn [map]. constructor; [|auto].
  intros Hin. apply H1. apply in_map_iff in Hin as (q & E & Hq). apply filter_In in Hq as [Hq _].
  rewrite <- E. now apply in_map.
Qed.

Lemma no_dot n : ~ In 46%N n -> split_dot n = None.
Proof.
  induction n as [|c n IH]; intros H; [reflexivity|]. cbn [split_dot].
  destruct (N.eqb_spec c 46); [exfalso; apply H; subst; now left|].
  rewrite IH; [reflexivity|]. intros ?. apply H. now right.
Qed.
Lemma dot_split p n : ~ In 46%N p -> split_dot (p ++ $"." ++ n) = Some (p, n).
Proof.
  induction p as [|c p IH]; intros H; [reflexivity|]. cbn [split_dot app].
  destruct (N.eqb_spec c 46); [exfalso; apply H; subst; now left|].
  cbn [app] in IH. rewrite IH; [reflexivity|]. intros ?. apply H. now right.
Qed.

Lemma resolve_spec found n a : ~ In 46%N n ->
  parse_attribute (load_plugins found) n = Ok a <-> snd a = n /\ StandsFor found n (fst a).
Proof.
  intros Hd. unfold parse_attribute. rewrite no_dot by exact Hd. unfold StandsFor.
  assert (F := for_attribute found). assert (Nd := for_attribute_nodup found n).
  destruct a as [pl m]. cbn [fst snd].
  destruct (str_in ($"file") (get_plugin_for_attribute (load_plugins found) n)) eqn:E.
  - apply str_in_iff, F in E. split.
    + intros [= <- <-]. auto.
    + intros (-> & H & [-> |[H' _]]); [reflexivity|contradiction].
  - apply not_true_iff_false in E. rewrite str_in_iff, F in E. split.
    + destruct (get_plugin_for_attribute (load_plugins found) n) as [|p [|q l]] eqn:G; try discriminate.
      intros [= <- <-]. split; [reflexivity|]. split.
      * apply F. rewrite G. now left.
      * right. split; [exact E|]. intros pl' H. apply F in H. rewrite G in H. now destruct H as [<-|[]].
    + intros (-> & H & [-> |[_ H']]); [contradiction|].
      apply F in H as Hin.
      assert (G : forall x, In x (get_plugin_for_attribute (load_plugins found) n) -> x = pl) by (intros x Hx; apply H', F, Hx).
      destruct (get_plugin_for_attribute (load_plugins found) n) as [|p [|q l]].
      * destruct Hin.
      * rewrite (G p (or_introl eq_refl)). reflexivity.
      * exfalso. inversion Nd as [|? ? N1 _]; subst. apply N1.
        rewrite (G p (or_introl eq_refl)), (G q (or_intror (or_introl eq_refl))). now left.
Qed.
Lemma resolve_error found n e : ~ In 46%N n ->
  parse_attribute (load_plugins found) n = Err e -> e = BadAttributeError /\ ~ exists pl, StandsFor found n pl.
Proof.
  intros Hd H. split.
  - unfold parse_attribute in H. rewrite no_dot in H by exact Hd.
    destruct (str_in _ _); [discriminate|]. destruct (get_plugin_for_attribute _ _) as [|? [|? ?]]; congruence.
  - intros [pl Hs]. assert (E : parse_attribute (load_plugins found) n = Ok (pl, n)) by (apply resolve_spec; auto). congruence.
Qed.

(** Order. *)
Lemma load_distinct found : NoDup (map p_name found) -> load_plugins found = found.
Proof.
  induction found as [|p found IH] using rev_ind; intros H; [reflexivity|].
  rewrite map_app in H. cbn [map] in H.
  assert (H' : NoDup (map p_name found) /\ ~ In (p_name p) (map p_name found)).
  { split.
    - now apply NoDup_remove_1 with (l' := []) in H; rewrite app_nil_r in H.
    - apply NoDup_remove_2 with (l' := []) in H. now rewrite app_nil_r in H. }
  rewrite load_app, IH by easy. unfold register_plugin.
  destruct (str_in (p_name p) (map p_name found)) eqn:E; [|reflexivity].
  apply str_in_iff in E. easy.
Qed.
Lemma same_loaded f g : (forall p, Loaded f p <-> Loaded g p) -> forall n pl, StandsFor f n pl <-> StandsFor g n pl.
Proof.
  intros H n pl. assert (P : forall pl, Provides f pl n <-> Provides g pl n).
  { intros x. unfold Provides. split; intros (p & H1 & H2); exists p; (split; [now apply H|exact H2]). }
  unfold StandsFor. rewrite P, (P ($"file")).
  split; intros (H1 & [H2|[H2 H3]]); (split; [exact H1|]); auto; right; (split; [exact H2|]); intros; apply H3; now apply P.
Qed.
Lemma order_distinct f g : NoDup (map p_name f) -> Permutation f g -> forall n, ~ In 46%N n ->
  parse_attribute (load_plugins f) n = parse_attribute (load_plugins g) n.
Proof.
  intros Nf Hp n Hd.
  assert (Ng : NoDup (map p_name g)) by (eapply Permutation_NoDup; [apply Permutation_map; exact Hp|exact Nf]).
  assert (L : forall p, Loaded f p <-> Loaded g p).
  { intros p. rewrite <- !load_in, !load_distinct by assumption. split; apply Permutation_in; [exact Hp|now apply Permutation_sym]. }
  assert (S := same_loaded f g L n).
  destruct (parse_attribute (load_plugins f) n) as [a|e] eqn:E.
  - symmetry. apply resolve_spec; [exact Hd|]. apply resolve_spec in E; [|exact Hd]. now rewrite <- S.
  - apply resolve_error in E as [-> E]; [|exact Hd].
    destruct (parse_attribute (load_plugins g) n) as [a|e] eqn:E'.
    + apply resolve_spec in E' as [_ E']; [|exact Hd]. apply S in E'. exfalso. eauto.
    + apply resolve_error in E' as [-> _]; [reflexivity|exact Hd].
Qed.

(** Types with a common super type. *)
Section Common.
  Variable C : Type.
  Variable eqb : C -> C -> bool.
  Hypothesis eqb_eq : forall a b, eqb a b = true <-> a = b.
  Variable bases : C -> list C.
  Variable root : C.
  Notation derives := (derives C bases).
  Lemma common_found la lb c : common_super eqb root la lb = Some c ->
    exists l1 l2, la = l1 ++ c :: l2 /\ ~ In root (l1 ++ [c]) /\ In c lb.
  Proof.
    induction la as [|d la IH]; cbn [common_super]; [discriminate|].
    destruct (eqb d root) eqn:E; [discriminate|].
    assert (Hd : d <> root) by (intros ->; rewrite (proj2 (eqb_eq root root) eq_refl) in E; discriminate).
    destruct (existsb (eqb d) lb) eqn:X.
    - intros [= <-]. exists [], la. split; [reflexivity|]. split; [cbn; intuition|].
      apply existsb_exists in X as (x & Hx & X). apply eqb_eq in X. now subst.
    - intros H. apply IH in H as (l1 & l2 & -> & H1 & H2). exists (d :: l1), l2.
      split; [reflexivity|]. split; [|exact H2]. cbn. intuition.
  Qed.
  Lemma common_none la lb : common_super eqb root la lb = None ->
    forall l1 c l2, la = l1 ++ c :: l2 -> ~ In root (l1 ++ [c]) -> ~ In c lb.
  Proof.
    induction la as [|d la IH]; cbn [common_super]; intros H l1 c l2 E Hr Hc.
    - now destruct l1.
    - destruct (eqb d root) eqn:Ed.
      + apply eqb_eq in Ed as ->. destruct l1; injection E as -> _; apply Hr; now left.
      + destruct (existsb (eqb d) lb) eqn:X; [discriminate|]. destruct l1 as [|x l1].
        * injection E as -> _. apply not_true_iff_false in X. apply X. apply existsb_exists. exists c.
          split; [exact Hc|now apply eqb_eq].
        * injection E as -> E. eapply IH; eauto. intros ?. apply Hr. now right.
  Qed.
  (** When nothing but subclasses of the root precedes it. *)
  Lemma common_iff a b la lb : is_mro C bases a la -> is_mro C bases b lb -> derives a root ->
    (forall c, derives a c -> derives c root \/ derives root c) ->
    (common_super eqb root la lb <> None <->
     exists c, derives c root /\ c <> root /\ derives a c /\ derives b c).
  Proof.
    intros [A1 A2] [B1 B2] Hroot Hm. split.
    - destruct (common_super eqb root la lb) as [c|] eqn:E; [|easy]. intros _.
      apply common_found in E as (l1 & l2 & -> & Hr & Hc). exists c.
      assert (Hac : derives a c) by (apply A1, in_or_app; right; now left).
      assert (Hne : c <> root) by (intros ->; apply Hr, in_or_app; right; now left).
      split; [|split; [exact Hne|split; [exact Hac|now apply B1]]].
      destruct (Hm c Hac) as [H|H]; [exact H|]. exfalso.
      apply A1 in Hroot. apply in_app_or in Hroot as [Hroot|Hroot].
      + apply Hr, in_or_app. now left.
      + destruct Hroot as [->|Hroot]; [easy|]. apply in_split in Hroot as (m1 & m2 & ->).
        eapply (A2 (l1 ++ c :: m1) root m2); [now rewrite <- app_assoc|apply in_or_app; right; now left|exact H].
    - intros (c & Hcr & Hne & Hac & Hbc) E. apply A1 in Hac. apply in_split in Hac as (l1 & l2 & ->).
      eapply common_none in E; [| reflexivity|].
      + apply E. now apply B1.
      + intros Hin. apply in_app_or in Hin as [Hin|[Hin|[]]]; [|easy].
        eapply (A2 l1 c l2); [reflexivity|exact Hin|exact Hcr].
  Qed.
End Common.

(** The built-in classes. *)
Definition class_bases (c : class) : list class :=
  match c with
  | CObject => []
  | CType => [CObject]
  | CSub TPath => [CSub TString]
  | CSub (TSize | TTime | TDuration) => [CSub TNumber]
  | CSub _ => [CType]
  end.
Definition ancestors (c : class) : list class :=
  match c with CObject => [CObject] | CType => [CType; CObject] | CSub t => full_mro t end.
Lemma derives_ancestors c d : derives class class_bases c d <-> In d (ancestors c).
Proof.
  split.
  - induction 1 as [c|c b d Hb H IH].
    + destruct c as [| |[]]; now left.
    + destruct c as [| |t]; cbn in Hb.
      * destruct Hb as [<-|[]]. now right.
      * destruct Hb.
      * destruct t; cbn in Hb; destruct Hb as [<-|[]]; cbn in *; tauto.
  - assert (O : derives class class_bases CType CObject) by (eapply derives_step; [now left|constructor]).
    assert (T : forall t, In CType (class_bases (CSub t)) ->
              derives class class_bases (CSub t) CType /\ derives class class_bases (CSub t) CObject).
    { intros t H. split; eapply derives_step; [exact H|constructor|exact H|exact O]. }
    destruct c as [| |t]; cbn [ancestors].
    + intros [<-|[<-|[]]]; [constructor|exact O].
    + intros [<-|[]]; constructor.
    + assert (S : forall t u, class_bases (CSub t) = [CSub u] -> In CType (class_bases (CSub u)) ->
              In d [CSub t; CSub u; CType; CObject] -> derives class class_bases (CSub t) d).
      { intros t' u Hb Hu [<-|[<-|[<-|[<-|[]]]]]; [constructor|..];
          (eapply derives_step; [rewrite Hb; now left|]); [constructor|apply T, Hu|apply T, Hu]. }
      assert (N : forall t, In CType (class_bases (CSub t)) -> In d [CSub t; CType; CObject] ->
              derives class class_bases (CSub t) d).
      { intros t' Hb [<-|[<-|[<-|[]]]]; [constructor|apply T, Hb|apply T, Hb]. }
      destruct t; cbn [full_mro mro map app]; first [apply N; now left|apply (S _ TString); [reflexivity|now left]
        |apply (S _ TNumber); [reflexivity|now left]].
Qed.
Lemma full_is_mro t : is_mro class class_bases (CSub t) (full_mro t).
Proof.
  split.
  - intros d. symmetry. apply (derives_ancestors (CSub t)).
  - intros l1 d l2 E e He Hd. apply derives_ancestors in Hd.
    destruct t; cbn [full_mro mro map app] in E;
      repeat (destruct l1 as [|? l1]; [injection E as <- <-; cbn in He, Hd; intuition (subst; discriminate)|
        injection E as <- E]); destruct l1; discriminate E.
Qed.
Lemma class_eqb_eq a b : class_eqb a b = true <-> a = b.
Proof.
  split; [|intros ->; destruct b as [| |[]]; reflexivity].
  destruct a as [| |[]], b as [| |[]]; cbn; congruence.
Qed.
Lemma common_builtin a b : get_common_super_type a b <> None <->
  exists c, derives class class_bases c CType /\ c <> CType /\
    derives class class_bases (CSub a) c /\ derives class class_bases (CSub b) c.
Proof.
  unfold get_common_super_type.
  apply (common_iff class class_eqb class_eqb_eq class_bases CType (CSub a) (CSub b)); [apply full_is_mro|apply full_is_mro| |].
  - apply derives_ancestors. destruct a; cbn; tauto.
  - intros c Hc. rewrite !derives_ancestors in *. destruct a; cbn in Hc; intuition; subst; cbn; tauto.
Qed.
