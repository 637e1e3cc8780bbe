(** From tokens to the patterns of GlobSpec. *)
From Coq Require Import List NArith ZArith Bool Lia ZifyBool.
From Verif Require Import Py Re ReJoin GlobModel GlobSpec GlobProofs.
Import ListNotations.

Definition item_tok (i : item) : tok :=
  match i with ILit c => KLit c | IAny => KAny | IStar => KStar | ISet n rs => KSet n rs end.
Definition toks (l : list item) : list tok := map item_tok l.
Fixpoint tailt (l : list elem) : list tok :=
  match l with
  | [] => []
  | PName i :: t => KLit SLASH :: toks i ++ tailt t
  | PDeep :: t =>
      match t with
      | [] => [KLast]
      | PName i :: t' => KMid :: toks i ++ tailt t'
      | PDeep :: _ => []
      end
  end.
Definition flat (l : list elem) : list tok :=
  match l with
  | PName i :: t => toks i ++ tailt t
  | PDeep :: PName i :: t => KFirst :: toks i ++ tailt t
  | _ => []
  end.

(** Induction in steps of one or two elements. *)
Lemma elem_ind (P : list elem -> Prop) :
  P [] -> (forall i t, P t -> P (PName i :: t)) -> P [PDeep] ->
  (forall i t, P t -> P (PDeep :: PName i :: t)) -> (forall t, P (PDeep :: PDeep :: t)) -> forall l, P l.
Proof.
  intros H0 H1 H2 H3 H4 l.
  assert (G : forall n l, length l <= n -> P l); [|now apply (G (length l))].
  clear l. induction n as [|n IH]; intros [|[i|] t] L; cbn in L; try lia; auto.
  - apply H1, IH. lia.
  - destruct t as [|[i|] t]; auto. apply H3, IH. cbn in L. lia.
Qed.

(** * Text *)
Lemma toks_text l : texts (toks l) = flat_map item_text l.
Proof.
  unfold texts, toks. rewrite flat_map_concat_map, map_map, <- flat_map_concat_map.
  apply flat_map_ext. now intros [].
Qed.
Lemma texts_app a b : texts (a ++ b) = texts a ++ texts b.
Proof. apply flat_map_app. Qed.
Definition sl (s : str) : str := SLASH :: s.
Definition tailstr (l : list str) : str := flat_map sl l.
Lemma join_tail n l : join_with ($"/") (n :: l) = n ++ tailstr l.
Proof.
  revert n. induction l as [|x l IH]; intros n; [cbn; now rewrite app_nil_r|].
  change (join_with ($"/") (n :: x :: l)) with (n ++ ($"/") ++ join_with ($"/") (x :: l)).
  rewrite IH. reflexivity.
Qed.
Lemma tail_text l : elems_ok l -> texts (tailt l) = tailstr (map elem_text l).
Proof.
  induction l as [| i t IH | | i t IH | t] using elem_ind; intros H; try reflexivity.
  - destruct H as (_ & H). cbn [tailt map tailstr flat_map elem_text]. fold (tailstr (map elem_text t)).
    rewrite <- IH by exact H. unfold texts at 1. cbn [flat_map text]. fold (texts (toks i ++ tailt t)).
    rewrite texts_app, toks_text. reflexivity.
  - destruct H as (_ & H). cbn [tailt map tailstr flat_map elem_text]. fold (tailstr (map elem_text t)).
    rewrite <- IH by exact H. unfold texts at 1. cbn [flat_map text]. fold (texts (toks i ++ tailt t)).
    rewrite texts_app, toks_text. reflexivity.
  - now destruct H.
Qed.
Definition flat_ok (l : list elem) : Prop := elems_ok l /\ l <> [] /\ l <> [PDeep].
Lemma flat_text l : flat_ok l -> texts (flat l) = body_text l.
Proof.
  intros (H & Hn & Hd). unfold body_text. destruct l as [|[i|] t]; [easy| |].
  - destruct H as (_ & H). cbn [flat map]. rewrite join_tail, texts_app, toks_text, tail_text by exact H.
    reflexivity.
  - destruct t as [|[i|] t]; [easy| |now destruct H]. destruct H as (_ & H).
    cbn [flat map]. rewrite join_tail. unfold texts at 1. cbn [flat_map].
    fold (texts (toks i ++ tailt t)). rewrite texts_app, toks_text, tail_text by exact H.
    cbn [tailstr flat_map map elem_text]. reflexivity.
Qed.

(** * Well-formedness *)
Lemma lit_ok_spec c : ~ In c ($"*?[/") -> lit_ok c = true /\ c <> SLASH.
Proof.
  intros H. cbn in H. unfold lit_ok. cbn [existsb]. unfold SLASH in *.
  split; [|intros ->; apply H; auto].
  apply negb_true_iff. rewrite !orb_false_iff, !N.eqb_neq. repeat split; intros ->; apply H; auto.
Qed.
Lemma sc_ok_spec c : set_char_ok c -> sc_ok c = true.
Proof.
  unfold set_char_ok, sc_ok. cbn [existsb]. intros H. cbn in H.
  apply negb_true_iff. rewrite !orb_false_iff, !N.eqb_neq. repeat split; intros ->; apply H; auto 7.
Qed.
Lemma r_ok_spec rs : Forall range_ok rs -> forallb r_ok rs = true.
Proof.
  rewrite Forall_forall, forallb_forall. intros H r Hr. destruct (H r Hr) as (H1 & H2 & H3).
  unfold r_ok. rewrite !sc_ok_spec by assumption. cbn [andb]. lia.
Qed.
Definition sep_start (s : str) : Prop := match s with [] => True | c :: _ => c = SLASH end.
Lemma toks_ok_app l t : Forall item_ok l -> no_double l -> toks_ok t -> sep_start (texts t) ->
  toks_ok (toks l ++ t).
Proof.
  intros Hl Hd Ht Hs. induction l as [|i l IH]; [exact Ht|].
  apply Forall_cons_iff in Hl as [Hi Hl].
  cbn [toks map app toks_ok]. fold (toks l). split.
  - apply IH; [exact Hl|]. destruct i; try exact Hd. destruct l as [|[] l]; first [exact I|exact Hd|destruct Hd].
  - destruct i; cbn [item_tok]; try exact I.
    + apply lit_ok_spec in Hi as [H1 H2]. split; [exact H1|easy].
    + destruct l as [|j l].
      * cbn [toks map app]. destruct (texts t) as [|c r]; [reflexivity|]. cbn in Hs. now subst c.
      * destruct j; try reflexivity; [|now destruct Hd].
        cbn [toks map app texts flat_map item_tok text head_is].
        apply Forall_inv in Hl. cbn in Hl. apply N.eqb_neq. intros ->. apply Hl. auto.
    + destruct Hi as [H1 H2]. split; [exact H1|now apply r_ok_spec].
Qed.
Lemma toks_start l t : l <> [] -> Forall item_ok l -> no_double l -> sep_start (texts t) ->
  starts_with ($"**") (texts (toks l ++ t)) = false.
Proof.
  intros Hn Hi Hd Hs. destruct l as [|i l]; [easy|]. apply Forall_cons_iff in Hi as [Hi Hl].
  destruct i; cbn [toks map app texts flat_map item_tok text]; fold (texts (toks l ++ t)).
  - cbn [app]. change ($"**") with [42;42]%N. cbn [starts_with].
    destruct (N.eqb_spec 42 c) as [<-|]; [|reflexivity]. destruct Hi. cbn. auto.
  - reflexivity.
  - change (starts_with ($"*") (texts (toks l ++ t)) = false). destruct l as [|j l].
    + cbn [toks map app]. destruct (texts t) as [|c r]; [reflexivity|]. cbn in Hs. now subst c.
    + destruct j; try reflexivity; [|now destruct Hd].
      apply Forall_inv in Hl. cbn [toks map app texts flat_map item_tok text]. 
      change ($"*") with [42%N]. cbn [starts_with].
      destruct (N.eqb_spec 42 c) as [<-|]; [|reflexivity]. destruct Hl. cbn. auto.
  - reflexivity.
Qed.
Lemma tail_start l : elems_ok l -> sep_start (texts (tailt l)).
Proof. intros H. rewrite tail_text by exact H. destruct l; reflexivity. Qed.
Lemma tail_ok l : elems_ok l -> toks_ok (tailt l).
Proof.
  induction l as [| i t IH | | i t IH | t] using elem_ind; intros H; try exact I.
  - destruct H as ((H1 & H2 & H3) & H). cbn [tailt toks_ok].
    pose proof (tail_start t H). split; [apply toks_ok_app; auto|]. split; [reflexivity|].
    intros _. now apply toks_start.
  - cbn. auto.
  - destruct H as ((H1 & H2 & H3) & H). cbn [tailt toks_ok].
    pose proof (tail_start t H). split; [apply toks_ok_app; auto|exact I].
Qed.
Lemma flat_toks_ok l : elems_ok l -> toks_ok (flat l).
Proof.
  destruct l as [|[i|] t]; intros H; try exact I.
  - destruct H as ((H1 & H2 & H3) & H). apply toks_ok_app; auto using tail_ok, tail_start.
  - destruct t as [|[i|] t]; try exact I. destruct H as ((H1 & H2 & H3) & H).
    cbn [flat toks_ok]. split; [|exact I]. apply toks_ok_app; auto using tail_ok, tail_start.
Qed.

(** * Matching *)
Lemma tok_item i a : TokMatch (item_tok i) a <-> ItemMatch i a.
Proof. destruct i as [| | |[]]; split; intros H; inversion H; subst; now constructor. Qed.
Lemma toks_name l : forall a, ToksMatch (toks l) a <-> NameMatch l a.
Proof.
  induction l as [|i l IH]; intros a; split; intros H; inversion H; subst; try constructor.
  - now apply tok_item.
  - now apply IH.
  - now apply tok_item.
  - now apply IH.
Qed.
Lemma toks_inv k l s : ToksMatch (k :: l) s -> exists a b, TokMatch k a /\ ToksMatch l b /\ s = a ++ b.
Proof. intros H. inversion H; subst. eauto 6. Qed.
Lemma toks_match_app l1 : forall l2 s, ToksMatch (l1 ++ l2) s <->
  exists a b, s = a ++ b /\ ToksMatch l1 a /\ ToksMatch l2 b.
Proof.
  induction l1 as [|k l1 IH]; intros l2 s; cbn [app].
  - split.
    + intros H. exists [], s. repeat split; [constructor|exact H].
    + intros (a & b & -> & H & Hb). inversion H; subst. exact Hb.
  - split.
    + intros H. inversion H as [|? ? a x T1 T2]; subst. apply IH in T2 as (a' & b' & -> & H1 & H2).
      exists (a ++ a'), b'. rewrite app_assoc. repeat split; [now constructor|exact H2].
    + intros (a & b & -> & H & Hb). inversion H; subst. rewrite <- app_assoc. constructor; [assumption|].
      apply IH. eauto.
Qed.
Lemma name_no_slash l a : Forall item_ok l -> Forall item_no_slash l -> NameMatch l a -> ~ In SLASH a.
Proof.
  intros Hi Hl H. induction H as [|i l a b H1 H2 IH]; [easy|].
  apply Forall_cons_iff in Hl as [Hs Hl]. apply Forall_cons_iff in Hi as [Hi Hi'].
  rewrite in_app_iff. intros [H|H]; [|now apply IH].
  inversion H1; subst.
  - destruct H as [->|[]]. apply Hi. cbn. auto.
  - destruct H as [->|[]]. easy.
  - easy.
  - destruct H as [->|[]]. destruct Hs as [_ Hs]. easy.
  - destruct Hs as [Hs _]. discriminate.
Qed.
(** Text up to the first slash is unique. *)
Lemma until_slash a b c d : a ++ b = c ++ d -> ~ In SLASH a -> ~ In SLASH c -> sep_start b -> sep_start d ->
  a = c /\ b = d.
Proof.
  revert c. induction a as [|x a IH]; intros [|y c] E Ha Hc Hb Hd.
  - auto.
  - cbn in E. subst b. cbn in Hb. subst y. destruct Hc. now left.
  - cbn in E. subst d. cbn in Hd. subst x. destruct Ha. now left.
  - cbn in E. injection E as -> E. destruct (IH c E) as [-> ->]; auto.
    + intros H. apply Ha. now right.
    + intros H. apply Hc. now right.
Qed.
Lemma tailstr_start l : sep_start (tailstr l).
Proof. destruct l; reflexivity. Qed.
Lemma tail_match_start l b : ToksMatch (tailt l) b -> sep_start b.
Proof.
  destruct l as [|[i|] t]; intros H.
  - inversion H; subst. exact I.
  - cbn in H. inversion H; subst. inversion H2; subst. reflexivity.
  - destruct t as [|[i|] t]; cbn in H.
    + inversion H; subst. inversion H4; subst. rewrite app_nil_r. inversion H2; subst; reflexivity.
    + inversion H; subst. inversion H2; subst; reflexivity.
    + inversion H; subst. exact I.
Qed.
Lemma tailstr_app a b : tailstr (a ++ b) = tailstr a ++ tailstr b.
Proof. apply flat_map_app. Qed.
Lemma tailstr_split l : forall u v, Forall (fun n => ~ In SLASH n) l -> tailstr l = u ++ SLASH :: v ->
  exists skip n ns, l = skip ++ n :: ns /\ u = tailstr skip /\ v = n ++ tailstr ns.
Proof.
  induction l as [|n l IH]; intros u v H E.
  - destruct u; discriminate.
  - apply Forall_cons_iff in H as [Hn H]. cbn [tailstr flat_map sl app] in E. fold (tailstr l) in E.
    destruct u as [|x u].
    + cbn in E. injection E as E. exists [], n, l. auto.
    + cbn in E. injection E as <- E.
      (* u = n ++ u' *)
      assert (G : exists u', u = n ++ u' /\ tailstr l = u' ++ SLASH :: v).
      { clear - E Hn. revert u E. induction n as [|c n IHn]; intros u E.
        - exists u. auto.
        - destruct u as [|y u].
          + cbn in E. injection E as -> _. destruct Hn. now left.
          + cbn in E. injection E as -> E. destruct (IHn (fun H => Hn (or_intror H)) u E) as (u' & -> & E').
            exists u'. auto. }
      destruct G as (u' & -> & E'). destruct (IH u' v H E') as (skip & n' & ns & -> & -> & ->).
      exists (n :: skip), n', ns. auto.
Qed.
Lemma name_tail l t n ns : Forall item_ok l -> Forall item_no_slash l -> ~ In SLASH n ->
  (ToksMatch (tailt t) (tailstr ns) <-> PathMatch t ns) ->
  ToksMatch (toks l ++ tailt t) (n ++ tailstr ns) <-> NameMatch l n /\ PathMatch t ns.
Proof.
  intros Hi Hl Hn IH. rewrite toks_match_app. split.
  - intros (a & b & E & Ha & Hb). apply toks_name in Ha.
    destruct (until_slash n (tailstr ns) a b E) as [-> <-]; auto using tailstr_start.
    + eapply name_no_slash; eauto.
    + eapply tail_match_start; eauto.
    + split; [exact Ha|now apply IH].
  - intros [Ha Hb]. exists n, (tailstr ns). split; [reflexivity|]. split; [now apply toks_name|now apply IH].
Qed.
Lemma names_slash l : Forall entry_name l -> Forall (fun n => ~ In SLASH n) l.
Proof. apply Forall_impl. intros n (_ & H & _). exact H. Qed.
Lemma names_nl l : Forall entry_name l -> ~ In NL (tailstr l).
Proof.
  intros H Hin. apply in_flat_map in Hin as (n & Hn & Hc). rewrite Forall_forall in H.
  destruct (H n Hn) as (_ & _ & H'). destruct Hc as [Hc|Hc]; [discriminate|easy].
Qed.
Lemma path_deep_name i t ns : PathMatch (PDeep :: PName i :: t) ns <->
  exists skip n ns', ns = skip ++ n :: ns' /\ NameMatch i n /\ PathMatch t ns'.
Proof.
  split.
  - intros H. inversion H as [| |? skip rest T]; subst. inversion T; subst. eauto 8.
  - intros (skip & n & ns' & -> & H1 & H2). constructor. now constructor.
Qed.
Lemma path_name i t n ns : PathMatch (PName i :: t) (n :: ns) <-> NameMatch i n /\ PathMatch t ns.
Proof. split; [intros H; inversion H; subst; auto|intros []; now constructor]. Qed.
Lemma separate_cons e t : separate (e :: t) -> separate t.
Proof. intros H i Hi. apply H. now right. Qed.
Lemma separate_head i t : separate (PName i :: t) -> Forall item_no_slash i.
Proof. intros H. apply H. now left. Qed.
Lemma tail_match l : elems_ok l -> separate l -> forall ns, Forall entry_name ns ->
  (ToksMatch (tailt l) (tailstr ns) <-> PathMatch l ns).
Proof.
  induction l as [| i t IH | | i t IH | t] using elem_ind; intros H Sep ns Hns.
  - cbn [tailt]. destruct ns as [|n ns].
    + split; constructor.
    + split; intros H'; inversion H'.
  - destruct H as ((H1 & H2 & H3) & H). pose proof (separate_head _ _ Sep) as Hs. apply separate_cons in Sep. specialize (IH H Sep).
    cbn [tailt]. destruct ns as [|n ns].
    + split; intros H'; [|inversion H'].
      apply toks_inv in H' as (a & b & T1 & T2 & E). inversion T1; subst. discriminate.
    + apply Forall_cons_iff in Hns as [Hn Hns]. rewrite path_name.
      rewrite <- (name_tail i t n ns H2 Hs (proj1 (proj2 Hn)) (IH ns Hns)).
      cbn [tailstr flat_map sl app]. fold (tailstr ns). split.
      * intros H'. apply toks_inv in H' as (a & b & T1 & T2 & E). inversion T1; subst.
        injection E as ->. exact T2.
      * intros H'. apply (tms_cons _ _ [SLASH] (n ++ tailstr ns)); [constructor|exact H'].
  - cbn [tailt]. split.
    + intros _. rewrite <- (app_nil_r ns). constructor. constructor.
    + intros _. rewrite <- (app_nil_r (tailstr ns)). apply tms_cons; [|constructor].
      destruct ns as [|n ns]; [constructor|].
      pose proof (names_nl _ Hns) as Hnl. cbn [tailstr flat_map sl app] in Hnl |- *. fold (tailstr ns) in Hnl |- *.
      constructor.
      * apply Forall_inv in Hns as (Hn & _). destruct n; [easy|discriminate].
      * intros Hin. apply Hnl. now right.
  - destruct H as ((H1 & H2 & H3) & H). apply separate_cons in Sep. pose proof (separate_head _ _ Sep) as Hs.
    apply separate_cons in Sep. specialize (IH H Sep). cbn [tailt]. rewrite path_deep_name. split.
    + intros H'. apply toks_inv in H' as (a & b & T1 & T2 & E).
      assert (G : forall u, tailstr ns = u ++ SLASH :: b ->
        exists skip n ns', ns = skip ++ n :: ns' /\ NameMatch i n /\ PathMatch t ns').
      { intros u Eu. destruct (tailstr_split ns u b (names_slash _ Hns) Eu) as (skip & n & ns' & -> & -> & ->).
        apply Forall_app in Hns as [_ Hns]. apply Forall_cons_iff in Hns as [Hn Hns].
        exists skip, n, ns'. split; [reflexivity|].
        apply (name_tail i t n ns' H2 Hs (proj1 (proj2 Hn)) (IH ns' Hns)). exact T2. }
      inversion T1; subst.
      * apply (G []). exact E.
      * apply (G (SLASH :: a0)). rewrite E. cbn [app].
        rewrite <- app_assoc. reflexivity.
    + intros (skip & n & ns' & -> & Hm & Hp). apply Forall_app in Hns as [Hsk Hns].
      pose proof (Forall_inv Hns) as Hn. pose proof (Forall_inv_tail Hns) as Hns'.
      rewrite tailstr_app. cbn [tailstr flat_map sl]. fold (tailstr ns').
      replace (tailstr skip ++ sl n ++ tailstr ns') with ((tailstr skip ++ ($"/")) ++ n ++ tailstr ns')
        by (rewrite <- !app_assoc; reflexivity).
      apply (tms_cons _ _ (tailstr skip ++ ($"/")) (n ++ tailstr ns')).
      * destruct skip as [|x skip]; [constructor|].
        cbn [tailstr flat_map sl app]. fold (tailstr skip).
        pose proof (names_nl _ Hsk) as Hnl. apply tm_mid.
        -- apply Forall_inv in Hsk as (Hx & _). destruct x; [easy|discriminate].
        -- intros Hin. apply Hnl. now right.
      * apply (name_tail i t n ns' H2 Hs (proj1 (proj2 Hn)) (IH ns' Hns')). auto.
  - now destruct H.
Qed.
Lemma flat_match l : flat_ok l -> separate l -> forall ns, Forall entry_name ns -> ns <> [] ->
  (ToksMatch (flat l) (join_with ($"/") ns) <-> PathMatch l ns).
Proof.
  intros (H & Hn & Hd) Sep ns Hns Hne. destruct ns as [|n ns]; [easy|]. rewrite join_tail.
  pose proof (Forall_inv Hns) as Hx. pose proof (Forall_inv_tail Hns) as Hns'.
  destruct l as [|[i|] t]; [easy| |].
  - destruct H as ((H1 & H2 & H3) & H). cbn [flat]. rewrite path_name.
    apply (name_tail i t n ns H2 (separate_head _ _ Sep) (proj1 (proj2 Hx)) (tail_match t H (separate_cons _ _ Sep) ns Hns')).
  - destruct t as [|[i|] t]; [easy| |now destruct H].
    pose proof (tail_match (PDeep :: PName i :: t) H Sep (n :: ns) Hns) as G.
    rewrite <- G. cbn [flat tailt tailstr flat_map sl app]. fold (tailstr ns). clear G.
    split.
    + intros H'. apply toks_inv in H' as (a & b & T1 & T2 & E). inversion T1; subst.
      * change (SLASH :: n ++ tailstr ns) with (($"/") ++ (n ++ tailstr ns)).
        rewrite E. apply tms_cons; [constructor|exact T2].
      * rewrite E.
        change (SLASH :: (a0 ++ ($"/")) ++ b) with ((SLASH :: a0 ++ ($"/")) ++ b).
        constructor; [now constructor|exact T2].
    + intros H'. apply toks_inv in H' as (a & b & T1 & T2 & E). inversion T1; subst.
      * injection E as E'. rewrite E'.
        apply (tms_cons _ _ [] b); [constructor|exact T2].
      * cbn [app] in E. injection E as E'.
        rewrite E'. constructor; [now constructor|exact T2].
Qed.

(** * The rest of translate *)
Definition word (s : str) : Prop := s <> [] /\ ~ In SLASH s.
Lemma range_text_slash r : range_ok r -> ~ In SLASH (range_text r).
Proof.
  intros (H1 & H2 & _) H. unfold range_text in H. unfold set_char_ok in *.
  assert (G : SLASH = fst r \/ SLASH = snd r).
  { destruct (N.eqb (fst r) (snd r)); cbn [In] in H.
    - destruct H as [H|[]]; auto.
    - destruct H as [H|[H|[H|[]]]]; auto; discriminate. }
  destruct G as [G|G]; [apply H1|apply H2]; rewrite <- G; cbn; auto 7.
Qed.
Lemma item_word i : item_ok i -> word (item_text i).
Proof.
  intros H. split; [destruct i; easy|]. destruct i; cbn [item_text item_ok] in *.
  - intros [->|[]]. apply H. cbn. auto.
  - intros [E|[]]; discriminate.
  - intros [E|[]]; discriminate.
  - destruct H as [_ H]. rewrite !in_app_iff. intros [[E|[]]|[E|[E|[E|[]]]]]; try discriminate.
    + destruct neg; [destruct E as [E|[]]; discriminate|destruct E].
    + apply in_flat_map in E as (r & Hr & E). rewrite Forall_forall in H.
      eapply range_text_slash; eauto.
Qed.
Lemma name_word l : name_pattern l -> word (flat_map item_text l).
Proof.
  intros (Hn & H & _). split.
  - destruct l as [|i l]; [easy|]. apply Forall_inv in H. apply item_word in H as [H _].
    cbn [flat_map]. destruct (item_text i); easy.
  - rewrite in_flat_map. intros (i & Hi & E). rewrite Forall_forall in H. apply (item_word i (H i Hi)), E.
Qed.
Lemma elems_words l : elems_ok l -> Forall word (map elem_text l).
Proof.
  induction l as [|[i|] t IH]; intros H; constructor.
  - apply name_word, H.
  - apply IH, H.
  - split; [easy|]. cbn. intros [E|[E|[]]]; discriminate.
  - apply IH. destruct t as [|[] t]; [exact I|apply H|now destruct H].
Qed.
Lemma words_tail ws : Forall word ws -> ws <> [] -> exists t c, tailstr ws = t ++ [c] /\ c <> SLASH.
Proof.
  intros H Hn. destruct (exists_last Hn) as (l & w & ->). apply Forall_app in H as [_ H].
  apply Forall_inv in H as [Hw Hs]. destruct (exists_last Hw) as (u & c & ->).
  exists (tailstr l ++ SLASH :: u), c. split.
  - rewrite tailstr_app. cbn [tailstr flat_map sl]. rewrite app_nil_r, <- app_assoc. reflexivity.
  - intros ->. apply Hs. apply in_or_app. right. now left.
Qed.
Lemma join_sl ws : ws <> [] -> SLASH :: join_with ($"/") ws = tailstr ws.
Proof. destruct ws as [|w ws]; [easy|]. intros _. rewrite join_tail. reflexivity. Qed.
Lemma join_last ws : Forall word ws -> ws <> [] -> exists t c, join_with ($"/") ws = t ++ [c] /\ c <> SLASH.
Proof.
  intros H Hn. destruct (words_tail ws H Hn) as (t & c & E & Hc). rewrite <- join_sl in E by exact Hn.
  destruct t as [|x t]; cbn in E.
  - destruct ws as [|w ws]; [easy|]. rewrite join_tail in E. apply Forall_inv in H as [Hw _].
    destruct w; [easy|]. discriminate.
  - injection E as _ E. eauto.
Qed.
Lemma join_first ws : Forall word ws -> ws <> [] -> exists c t, join_with ($"/") ws = c :: t /\ c <> SLASH.
Proof.
  intros H Hn. destruct ws as [|w ws]; [easy|]. rewrite join_tail. apply Forall_inv in H as [Hw Hs].
  destruct w as [|c w]; [easy|]. exists c, (w ++ tailstr ws). split; [reflexivity|].
  intros ->. apply Hs. now left.
Qed.
Lemma index_none s : ~ In SLASH s -> index_c SLASH s = None.
Proof.
  induction s as [|c s IH]; intros H; [reflexivity|]. cbn [index_c].
  destruct (N.eqb_spec c SLASH) as [->|]; [destruct H; now left|].
  rewrite IH; [reflexivity|]. intros Hin. apply H. now right.
Qed.
Lemma index_at s t : ~ In SLASH s -> index_c SLASH (s ++ SLASH :: t) = Some (length s).
Proof.
  induction s as [|c s IH]; intros H; cbn [app index_c].
  - reflexivity.
  - destruct (N.eqb_spec c SLASH) as [->|]; [destruct H; now left|].
    rewrite IH; [reflexivity|]. intros Hin. apply H. now right.
Qed.
Lemma ends_slash t c : c <> SLASH -> ends_with ($"/") (t ++ [c]) = false.
Proof.
  intros H. destruct (ends_with ($"/") (t ++ [c])) eqn:E; [|reflexivity].
  apply ends_with_iff in E as (u & E). apply app_inj_tail in E as [_ E]. now destruct H.
Qed.
Lemma ends_slash_true s : ends_with ($"/") (s ++ ($"/")) = true.
Proof. apply ends_with_iff. eauto. Qed.
Lemma removelast_slash (s : str) : removelast (s ++ ($"/")) = s.
Proof. apply removelast_last. Qed.

(** The pattern without negation and escapes. *)
Definition middle (p : pattern) : str :=
  (if p_leading p then $"/" else []) ++ body_text (p_elems p) ++ (if p_directory p then $"/" else []).
Definition finish (include : bool) (pattern : str) : glob :=
  let '(anchored, pattern) :=
      let anchored := match index_c SLASH pattern with
                      | Some i => Nat.ltb i (length pattern - 1)
                      | None => false
                      end in
      (anchored, if anchored then lstrip_p (N.eqb SLASH) pattern else pattern) in
  let '(directory, pattern) :=
    if ends_with ($"/") pattern then (true, removelast pattern) else (false, pattern) in
  {| g_regex := $"^" ++ concat (map translate_part (re_split split_re pattern)) ++ $"$";
     g_include := include; g_anchored := anchored; g_directory := directory |}.
Lemma translate_start p : starts_plain p -> body_text (p_elems p) <> [] ->
  translate (pattern_text p) true = finish (negb (p_negated p)) (middle p).
Proof.
  intros H Hn. unfold translate, pattern_text. fold (middle p).
  assert (E : exists c t, middle p = c :: t /\ N.eqb 33 c = false /\ N.eqb 92 c = false).
  { unfold middle. destruct (p_leading p) eqn:El.
    - eexists _, _. split; [reflexivity|]. split; reflexivity.
    - specialize (H El). destruct (body_text (p_elems p)) as [|c t]; [easy|]. cbn [app].
      eexists _, _. split; [reflexivity|]. cbn in H.
      split; apply N.eqb_neq; intros <-; apply H; auto. }
  destruct E as (c & t & -> & E1 & E2). clear - E1 E2.
  change ($"\#") with [92;35]%N. change ($"\!") with [92;33]%N. change ($"!") with [33]%N.
  destruct (p_negated p); cbn [app].
  - change (starts_with [92%N; 35%N] (33%N :: c :: t)) with false. cbn iota.
    change (starts_with [33%N] (33%N :: c :: t)) with true. cbn iota. cbn [tl].
    cbn [starts_with]. rewrite E2. cbn [andb]. reflexivity.
  - cbn [starts_with]. rewrite E2. cbn [andb]. cbn iota. cbn [starts_with]. rewrite E1. cbn [andb].
    cbn iota. cbn [starts_with]. rewrite E2. cbn [andb]. reflexivity.
Qed.
Lemma finish_path p b : path_form p -> finish b (middle p) =
  {| g_regex := ($"^") ++ rtexts (flat (p_elems p)) ++ ($"$"); g_include := b; g_anchored := true;
     g_directory := p_directory p |}.
Proof.
  intros (Hl & Ho & Hn & Hd).
  assert (Hf : flat_ok (p_elems p)) by (split; auto).
  pose proof (elems_words _ Ho) as Hw.
  assert (Hn' : map elem_text (p_elems p) <> []) by (destruct (p_elems p); easy).
  destruct (join_last _ Hw Hn') as (u & c & El & Hc). destruct (join_first _ Hw Hn') as (d & v & Ef & Hd').
  fold (body_text (p_elems p)) in El, Ef.
  assert (Ha : match index_c SLASH (middle p) with
               | Some i => Nat.ltb i (length (middle p) - 1)
               | None => false
               end = true).
  { unfold middle. destruct (p_leading p).
    - cbn [app lit index_c]. change (index_c SLASH (47%N :: body_text (p_elems p) ++ (if p_directory p then $"/" else []))) with (Some 0).
      apply Nat.ltb_lt. cbn [length]. rewrite Ef. cbn. lia.
    - destruct Hl as [Hl|Hl]; [discriminate|]. destruct (p_elems p) as [|e1 [|e2 es]]; cbn [length] in Hl; try lia.
      unfold body_text. rewrite app_nil_l. cbn [map]. rewrite join_tail. cbn [tailstr flat_map sl].
      cbn [map] in Hw. apply Forall_cons_iff in Hw as [[_ H1] Hw]. apply Forall_inv in Hw as [H2 _].
      match goal with |- context [index_c SLASH (?a ++ ?z)] =>
        replace (a ++ z) with (elem_text e1 ++ SLASH :: (elem_text e2 ++ flat_map sl (map elem_text es) ++ z));
        [|unfold sl; rewrite <- !app_assoc; reflexivity] end.
      rewrite index_at by exact H1. apply Nat.ltb_lt. rewrite !app_length. cbn [length]. rewrite !app_length.
      destruct (elem_text e2); [easy|]. cbn [length]. lia. }
  assert (Hs : lstrip_p (N.eqb SLASH) (middle p) = body_text (p_elems p) ++ (if p_directory p then $"/" else [])).
  { unfold middle. rewrite Ef. destruct (p_leading p); cbn [app lit lstrip_p].
    - change (N.eqb SLASH 47) with true. cbn iota. destruct (N.eqb_spec SLASH d); [congruence|reflexivity].
    - destruct (N.eqb_spec SLASH d); [congruence|reflexivity]. }
  unfold finish. rewrite Ha, Hs. destruct (p_directory p).
  - rewrite ends_slash_true, removelast_slash, <- flat_text, translate_toks; auto using flat_toks_ok.
  - rewrite app_nil_r, El, ends_slash, <- El, <- flat_text, translate_toks; auto using flat_toks_ok.
Qed.
Lemma finish_name p l b : for_name p l -> finish b (middle p) =
  {| g_regex := ($"^") ++ rtexts (toks l) ++ ($"$"); g_include := b; g_anchored := false;
     g_directory := p_directory p |}.
Proof.
  intros (He & Hl & Hp). unfold finish, middle. rewrite He, Hl, app_nil_l.
  unfold body_text. cbn [map join_with elem_text].
  pose proof (name_word l Hp) as [Hn Hs].
  assert (Ho : toks_ok (toks l)).
  { rewrite <- (app_nil_r (toks l)). destruct Hp as (H1 & H2 & H3). now apply toks_ok_app. }
  destruct (p_directory p).
  - change ($"/") with [SLASH]. rewrite index_at by exact Hs.
    replace (Nat.ltb (length (flat_map item_text l)) (length (flat_map item_text l ++ [SLASH]) - 1)) with false
      by (symmetry; apply Nat.ltb_ge; rewrite app_length; cbn; lia).
    change [SLASH] with ($"/"). rewrite ends_slash_true, removelast_slash, <- toks_text, translate_toks; auto.
  - rewrite app_nil_r, index_none by exact Hs.
    destruct (exists_last Hn) as (u & c & E).
    rewrite E, ends_slash, <- E, <- toks_text, translate_toks; auto.
    intros ->. apply Hs. rewrite E. apply in_or_app. right. now left.
Qed.

(** The results. *)
Lemma lstrip_slashes k s : match s with [] => True | c :: _ => c <> SLASH end ->
  lstrip_p (N.eqb SLASH) (repeat SLASH k ++ s) = s.
Proof.
  intros H. induction k as [|k IH]; cbn [repeat app].
  - apply lstrip_p_id. destruct s as [|c s]; [exact I|]. apply N.eqb_neq. congruence.
  - cbn [lstrip_p]. rewrite N.eqb_refl. exact IH.
Qed.
Lemma entry_word n : entry_name n -> word n.
Proof. intros (H1 & H2 & _). split; assumption. Qed.
Lemma entry_words l : Forall entry_name l -> Forall word l.
Proof. apply Forall_impl. exact entry_word. Qed.
Lemma join_nl ns : Forall entry_name ns -> ~ In NL (join_with ($"/") ns).
Proof.
  intros H Hin. destruct ns as [|n ns]; [destruct Hin|]. apply (names_nl _ H).
  rewrite <- join_sl by easy. now right.
Qed.
Lemma body_nonempty p : elems_ok (p_elems p) -> p_elems p <> [] -> body_text (p_elems p) <> [].
Proof.
  intros Ho Hn.
  assert (Hn' : map elem_text (p_elems p) <> []) by (destruct (p_elems p); easy).
  destruct (join_first _ (elems_words _ Ho) Hn') as (d & v & Ef & _). unfold body_text. now rewrite Ef.
Qed.
Lemma glob_path p k ns base is_dir : for_path p -> starts_plain p -> Forall entry_name ns -> ns <> [] ->
  exists b, glob_match (translate (pattern_text p) true) (repeat SLASH k ++ join_with ($"/") ns) base is_dir = COk b /\
    (b = true <-> PathMatch (p_elems p) ns /\ (p_directory p = true -> is_dir = true)).
Proof.
  intros (Hp & Sep) Hs Hns Hne. destruct (Hp) as (_ & Ho & Hn & Hd).
  rewrite translate_start, finish_path by auto using body_nonempty.
  unfold glob_match. cbn [g_regex g_anchored g_directory].
  rewrite compile_toks by now apply flat_toks_ok. cbn [cbind].
  rewrite lstrip_slashes.
  2:{ destruct (join_first _ (entry_words _ Hns) Hne) as (c & t & -> & Hc). exact Hc. }
  eexists. split; [reflexivity|]. rewrite andb_true_iff, glob_re_exact by now apply join_nl.
  rewrite flat_match by (auto; split; auto).
  destruct (p_directory p), is_dir; cbn [negb orb]; intuition congruence.
Qed.
Lemma glob_name p l path base is_dir : for_name p l -> starts_plain p -> ~ In NL base ->
  exists b, glob_match (translate (pattern_text p) true) path base is_dir = COk b /\
    (b = true <-> NameMatch l base /\ (p_directory p = true -> is_dir = true)).
Proof.
  intros Hp Hs Hnl. destruct (Hp) as (He & Hl & Hp').
  rewrite translate_start; [|exact Hs|].
  2:{ rewrite He. unfold body_text. cbn [map join_with elem_text]. apply name_word, Hp'. }
  rewrite finish_name with (l := l) by exact Hp.
  unfold glob_match. cbn [g_regex g_anchored g_directory].
  rewrite compile_toks.
  2:{ rewrite <- (app_nil_r (toks l)). destruct Hp' as (H1 & H2 & H3). now apply toks_ok_app. }
  cbn [cbind]. eexists. split; [reflexivity|]. rewrite andb_true_iff, glob_re_exact by exact Hnl.
  rewrite toks_name. destruct (p_directory p), is_dir; cbn [negb orb]; intuition congruence.
Qed.
Lemma include_form p : starts_plain p -> (path_form p \/ exists l, for_name p l) ->
  g_include (translate (pattern_text p) true) = negb (p_negated p).
Proof.
  intros Hs [Hp|(l & Hp)].
  - destruct (Hp) as (_ & Ho & Hn & _). rewrite translate_start, finish_path by auto using body_nonempty. reflexivity.
  - destruct (Hp) as (He & Hl & Hp'). rewrite translate_start; [|exact Hs|].
    2:{ rewrite He. unfold body_text. cbn [map join_with elem_text]. apply name_word, Hp'. }
    rewrite finish_name with (l := l) by exact Hp. reflexivity.
Qed.
Lemma forms p : (for_path p \/ exists l, for_name p l) -> path_form p \/ exists l, for_name p l.
Proof. intros [[H _]|H]; auto. Qed.
Lemma glob_include p : starts_plain p -> (for_path p \/ exists l, for_name p l) ->
  g_include (translate (pattern_text p) true) = negb (p_negated p).
Proof. intros H1 H2. exact (include_form p H1 (forms p H2)). Qed.

(** No wildcard crosses a separator. *)
Lemma tail_components l : (forall e, In e l -> e <> PDeep) -> forall s, ToksMatch (tailt l) s ->
  exists ns, s = tailstr ns /\ PathMatch l ns.
Proof.
  induction l as [|[i|] t IH]; intros H s Hm.
  - inversion Hm; subst. exists []. split; [reflexivity|constructor].
  - cbn [tailt] in Hm. apply toks_inv in Hm as (a & b & T1 & T2 & ->). inversion T1; subst.
    apply toks_match_app in T2 as (x & y & -> & Hx & Hy). apply toks_name in Hx.
    destruct (IH (fun e He => H e (or_intror He)) y Hy) as (ns & -> & Hp).
    exists (x :: ns). split; [reflexivity|now constructor].
  - now destruct (H PDeep (or_introl eq_refl)).
Qed.
Lemma flat_components l : l <> [] -> (forall e, In e l -> e <> PDeep) -> forall s, ToksMatch (flat l) s ->
  exists ns, s = join_with ($"/") ns /\ PathMatch l ns.
Proof.
  intros Hn H s Hm. destruct l as [|[i|] t]; [easy| |now destruct (H PDeep (or_introl eq_refl))].
  cbn [flat] in Hm. apply toks_match_app in Hm as (x & y & -> & Hx & Hy). apply toks_name in Hx.
  destruct (tail_components t (fun e He => H e (or_intror He)) y Hy) as (ns & -> & Hp).
  exists (x :: ns). split; [now rewrite join_tail|now constructor].
Qed.
Lemma match_separate l : elems_ok l -> separate l -> (forall e, In e l -> e <> PDeep) ->
  forall ns, PathMatch l ns -> Forall (fun n => ~ In SLASH n) ns.
Proof.
  induction l as [|[i|] t IH]; intros Ho Sep Hd ns H; [inversion H; constructor| |now destruct (Hd PDeep (or_introl eq_refl))].
  inversion H; subst. destruct Ho as ((_ & Hi & _) & Ho). constructor.
  - eapply name_no_slash; [exact Hi|exact (separate_head _ _ Sep)|eassumption].
  - apply IH; [exact Ho|exact (separate_cons _ _ Sep)| |assumption]. intros e He. apply Hd. now right.
Qed.
Lemma glob_components p path base is_dir : for_path p -> starts_plain p ->
  (forall e, In e (p_elems p) -> e <> PDeep) -> ~ In NL path ->
  glob_match (translate (pattern_text p) true) path base is_dir = COk true ->
  exists k ns, path = repeat SLASH k ++ join_with ($"/") ns /\ PathMatch (p_elems p) ns /\ Forall (fun n => ~ In SLASH n) ns.
Proof.
  intros (Hp & Sep) Hs Hd Hnl. destruct (Hp) as (_ & Ho & Hn & _).
  rewrite translate_start, finish_path by auto using body_nonempty.
  unfold glob_match. cbn [g_regex g_anchored g_directory].
  rewrite compile_toks by now apply flat_toks_ok. cbn [cbind].
  assert (E : exists k, path = repeat SLASH k ++ lstrip_p (N.eqb SLASH) path).
  { clear. induction path as [|c t (k & IH)]; [now exists 0|]. cbn [lstrip_p].
    destruct (N.eqb_spec SLASH c) as [<-|].
    - exists (S k). cbn [repeat app]. now rewrite <- IH.
    - now exists 0. }
  destruct E as (k & E).
  intros H. injection H as H. apply andb_true_iff in H as [H _]. rewrite glob_re_exact in H.
  - destruct (flat_components _ Hn Hd _ H) as (ns & E' & Hm). exists k, ns. rewrite <- E'. split; [exact E|]. split; [exact Hm|].
    exact (match_separate _ Ho Sep Hd ns Hm).
  - intros Hin. apply Hnl. rewrite E. apply in_or_app. now right.
Qed.

(** Well-formed patterns compile. *)
Lemma glob_re_groups l : ngroups (glob_re l) = 0.
Proof.
  unfold glob_re. cbn [ngroups]. rewrite Nat.add_0_r.
  assert (G : forall l r, ngroups (fold_left Cat (map atom l) r) = ngroups r).
  { clear. induction l as [|k l IH]; intros r; [reflexivity|]. cbn [map fold_left]. rewrite IH. cbn [ngroups].
    destruct k; cbn; lia. }
  now rewrite G.
Qed.
Lemma compiles_form p : starts_plain p -> (path_form p \/ exists l, for_name p l) ->
  exists r, compiles false (g_regex (translate (pattern_text p) true)) r.
Proof.
  intros Hs [Hp|(l & Hp)].
  - destruct (Hp) as (_ & Ho & Hn & _). rewrite translate_start, finish_path by auto using body_nonempty.
    eexists. split; [apply compile_toks; now apply flat_toks_ok|apply glob_re_groups].
  - destruct (Hp) as (He & Hl & Hp'). rewrite translate_start; [|exact Hs|].
    2:{ rewrite He. unfold body_text. cbn [map join_with elem_text]. apply name_word, Hp'. }
    rewrite finish_name with (l := l) by exact Hp.
    eexists. split; [apply compile_toks|apply glob_re_groups].
    rewrite <- (app_nil_r (toks l)). destruct Hp' as (H1 & H2 & H3). now apply toks_ok_app.
Qed.
Lemma glob_compiles p : starts_plain p -> (for_path p \/ exists l, for_name p l) ->
  exists r, compiles false (g_regex (translate (pattern_text p) true)) r.
Proof. intros H1 H2. exact (compiles_form p H1 (forms p H2)). Qed.
