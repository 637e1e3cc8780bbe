From Coq Require Import List NArith ZArith Bool Lia ZifyBool.
From Verif Require Import Py Re FloatLib ConvertModel ConvertSpec DurationProofs.
Import ListNotations.

Definition fixedu (s : str) : Prop := forall c, In c s -> upper_c c = c.
Lemma upper_c_idem c : upper_c (upper_c c) = upper_c c.
Proof.
  unfold upper_c at 2 3. destruct (is_lower_az c || between 224 254 c && negb (c =? 247)%N) eqn:E.
  - unfold upper_c. destruct (is_lower_az (c - 32)%N || _) eqn:F; [|reflexivity].
    unfold is_lower_az, between in *. lia.
  - unfold upper_c. now rewrite E.
Qed.
Lemma fixedu_upper s : fixedu (upper s).
Proof. intros c H. apply in_map_iff in H as (x & <- & _). apply upper_c_idem. Qed.
Lemma fixedu_app a b : fixedu (a ++ b) <-> fixedu a /\ fixedu b.
Proof.
  unfold fixedu. split.
  - intros H. split; intros; apply H; apply in_or_app; auto.
  - intros [H1 H2] c H. apply in_app_or in H as [H|H]; auto.
Qed.

Definition ic (c : char) : cls := Cls true false [CChar c].
Definition icd : cls := Cls true false [CDigit false].
Lemma mem_ic x c : upper_c c = c -> (is_upper_AZ x || is_lower_az x || (x =? 46)%N = true) ->
  (mem (ic x) c = true <-> c = upper_c x).
Proof.
  intros Hc Hx. unfold mem, ic, items_mem. cbn [c_neg c_icase c_items existsb item_mem andb xorb].
  rewrite !orb_false_r. rewrite Hc.
  assert (E : (x =? c)%N || ((x =? lower_c c)%N || (x =? c)%N) = (c =? upper_c x)%N).
  { assert (Hc' : is_lower_az c || between 224 254 c && negb (c =? 247)%N = false).
    { unfold upper_c in Hc. destruct (is_lower_az c || _) eqn:F; [|reflexivity].
      unfold is_lower_az, between in *. lia. }
    clear Hc. unfold lower_c, upper_c.
    destruct (is_upper_AZ c || _) eqn:F1; destruct (is_lower_az x || _) eqn:F2;
      unfold is_upper_AZ, is_lower_az, between in *; lia. }
  destruct (x =? c)%N; destruct (x =? lower_c c)%N; cbn in *; rewrite <- N.eqb_eq; rewrite <- E; tauto.
Qed.
Lemma mem_icd c : mem icd c = is_d c.
Proof.
  unfold mem, icd, items_mem. cbn [c_neg c_icase c_items existsb item_mem andb].
  rewrite !orb_false_r.
  assert (E : forall b, xorb false b = b) by now destruct b. rewrite !E.
  unfold lower_c, upper_c, is_upper_AZ, is_lower_az, is_d, between in *.
  destruct ((97 <=? c)%N && _ || _) eqn:?; destruct ((65 <=? c)%N && _ || _) eqn:?; lia.
Qed.
Lemma mem_icd_all s : forallb (mem icd) s = forallb is_d s.
Proof. induction s; cbn [forallb]; [reflexivity|]. now rewrite mem_icd, IHs. Qed.

(** The parts of the regular expression. *)
Definition reA : re := match size_re with Alt a _ => a | _ => Eps end.
Definition reB : re := match size_re with Alt _ b => b | _ => Eps end.
Definition reU : re :=
  match reB with Cat (Cat _ (Opt _ (Grp _ u))) _ => u | _ => Eps end.
Lemma reA_eq : reA =
  Cat (Cat (Cat Eps (Grp 1 (Cat Eps (Cat (Chr icd) (Star true icd))))) (Opt true (Chr (ic 98%N)))) Eol.
Proof. reflexivity. Qed.
Lemma reB_eq : reB =
  Cat (Cat (Cat Eps (Grp 2 (Cat (Cat Eps (Cat (Chr icd) (Star true icd)))
     (Opt true (Cat (Cat Eps (Chr (ic 46%N))) (Cat (Chr icd) (Star true icd)))))))
     (Opt true (Grp 3 reU))) Eol.
Proof. reflexivity. Qed.
Lemma size_re_eq : size_re = Alt reA reB.
Proof. reflexivity. Qed.

(** Upper-case units. *)
Definition uunits : list str :=
  tl UNITS ++ map (fun u => u ++ $"B") (tl UNITS) ++ map (fun u => u ++ $"IB") (tl UNITS).
Definition upper_words (l : list (list cls)) : list str :=
  map (map (fun p => match c_items p with [CChar c] => upper_c c | _ => 0%N end)) l.
Lemma reU_words : exists l, words reU = Some l /\ upper_words l = uunits /\
  forall w p, In w l -> In p w -> exists x, p = ic x /\ is_upper_AZ x || is_lower_az x || (x =? 46)%N = true.
Proof.
  eexists. split; [vm_compute; reflexivity|]. split; [vm_compute; reflexivity|].
  intros w p Hw Hp.
  repeat (destruct Hw as [<-|Hw]; [repeat (destruct Hp as [<-|Hp]; [eexists; split; [reflexivity|reflexivity]|]); destruct Hp|]).
  destruct Hw.
Qed.
Lemma Dc_unit n0 s cs s' cs' : fixedu s ->
  (Dc n0 reU s cs s' cs' <-> cs' = cs /\ exists u, In u uunits /\ s = u ++ s').
Proof.
  intros Hf. destruct reU_words as (l & El & Eu & Hl). rewrite (Dc_words n0 reU l El).
  rewrite <- Eu. unfold upper_words.
  assert (G : forall w a, (forall p, In p w -> exists x, p = ic x /\
                is_upper_AZ x || is_lower_az x || (x =? 46)%N = true) -> fixedu a ->
              (spells w a <-> a = map (fun p => match c_items p with [CChar c] => upper_c c | _ => 0%N end) w)).
  { clear. induction w as [|p w IH]; intros a Hw Ha.
    - apply spells_nil.
    - destruct (Hw p (or_introl eq_refl)) as (x & -> & Hx). rewrite spells_iff. cbn [map ic c_items]. split.
      + intros (c & t & -> & Hc & Ht). apply mem_ic in Hc; [|apply Ha; now left|exact Hx].
        subst c. f_equal. apply IH; [intros; apply Hw; now right|intros y Hy; apply Ha; now right|exact Ht].
      + intros ->. eexists _, _. split; [reflexivity|]. split.
        * apply mem_ic; [apply upper_c_idem|exact Hx|reflexivity].
        * apply IH; [intros; apply Hw; now right|intros y Hy; apply Ha; now right|reflexivity]. }
  split; intros [-> H]; (split; [reflexivity|]).
  - destruct H as (w & a & Hw & -> & Hs). apply fixedu_app in Hf as [Hf _].
    apply G in Hs; [|intros p; now apply Hl|exact Hf]. subst a.
    eexists. split; [apply in_map; exact Hw|reflexivity].
  - destruct H as (u & Hu & ->). apply in_map_iff in Hu as (w & <- & Hw).
    apply fixedu_app in Hf as [Hf _].
    eexists w, _. split; [exact Hw|]. split; [reflexivity|].
    apply G; [intros p; now apply Hl|exact Hf|reflexivity].
Qed.

Definition nl (t : str) : Prop := t = [] \/ t = [NL].
Lemma at_end_nl t : at_end t = true <-> nl t.
Proof.
  unfold nl. destruct t as [|c [|d t]]; cbn; split; try easy; auto.
  - rewrite N.eqb_eq. intros ->. auto.
  - intros [H|[= ->]]; [easy|reflexivity].
  - intros [H|H]; discriminate.
Qed.

Lemma DcA n0 s s' cs : fixedu s ->
  (Dc n0 reA s [] s' cs <->
   nl s' /\ exists ds b, s = ds ++ b ++ s' /\ digits ds /\ (b = [] \/ b = [66%N]) /\ cs = [(1, ds)]).
Proof.
  intros Hf. rewrite reA_eq. cbn [Dc]. split.
  - intros (t & ct & (t1 & ct1 & (t0 & ct0 & (-> & ->) & (ct2 & (t3 & ct3 & (-> & ->) & H) & ->)) & Hb) & -> & -> & He).
    apply (Dc_plus n0 true) in H as (ds & Hn & -> & Hd & ->).
    rewrite mem_icd_all in Hd. rewrite firstn_sub in Hb.
    split; [now apply at_end_nl|].
    destruct Hb as [(c & -> & Hc & ->)|[-> ->]].
    + apply fixedu_app in Hf as [_ Hf]. apply mem_ic in Hc; [|apply Hf; now left|reflexivity].
      exists ds, [66%N]. subst c. assert (digits ds) by now apply digits_forallb. auto 8.
    + exists ds, []. assert (digits ds) by now apply digits_forallb. auto 8.
  - intros (He & ds & b & -> & Hd & Hb & ->). apply digits_forallb in Hd as [Hn Hd].
    exists s', [(1, ds)]. split; [|apply at_end_nl in He; auto].
    exists (b ++ s'), [(1, ds)]. split.
    + eexists _, _. split; [split; reflexivity|]. exists []. rewrite firstn_sub. split; [|reflexivity].
      eexists _, _. split; [split; reflexivity|]. apply (Dc_plus n0 true). exists ds.
      rewrite mem_icd_all. auto.
    + destruct Hb as [->| ->]; [right; auto|left]. exists 66%N. repeat split; auto.
Qed.

Definition number (s : str) : Prop :=
  digits s \/ exists ds es, s = ds ++ DOT :: es /\ digits ds /\ digits es.
Lemma DcB n0 s s' cs : fixedu s ->
  (Dc n0 reB s [] s' cs <->
   nl s' /\ exists num u, s = num ++ u ++ s' /\ number num /\
     ((u = [] /\ cs = [(2, num)]) \/ (In u uunits /\ cs = [(3, u); (2, num)]))).
Proof.
  intros Hf. rewrite reB_eq. cbn [Dc]. split.
  - intros (t & ct & (t1 & ct1 & (t0 & ct0 & (-> & ->) & (ct2 & Hnum & ->)) & Hb) & -> & -> & He).
    assert (N : exists num, s = num ++ t1 /\ number num /\ ct2 = []).
    { destruct Hnum as (t2 & ct3 & (t3 & ct4 & (-> & ->) & H) & Ho).
      apply (Dc_plus n0 true) in H as (ds & Hn & -> & Hd & ->). rewrite mem_icd_all in Hd.
      destruct Ho as [(t4 & ct5 & (t5 & ct6 & (-> & ->) & (c & -> & Hc & ->)) & H2)|[-> ->]].
      - apply (Dc_plus n0 true) in H2 as (es & Hn2 & -> & Hd2 & ->). rewrite mem_icd_all in Hd2.
        apply fixedu_app in Hf as [_ Hf]. apply mem_ic in Hc; [|apply Hf; now left|reflexivity].
        subst c. exists (ds ++ DOT :: es). rewrite <- app_assoc.
        assert (digits ds) by now apply digits_forallb. assert (digits es) by now apply digits_forallb.
        split; [reflexivity|]. split; [|reflexivity]. right. exists ds, es. auto.
      - exists ds. split; [reflexivity|]. split; [|reflexivity]. left. now apply digits_forallb. }
    destruct N as (num & -> & Hnumb & ->). rewrite firstn_sub in Hb.
    split; [now apply at_end_nl|]. apply fixedu_app in Hf as [_ Hf].
    destruct Hb as [(ct4 & Hu & ->)|[-> ->]].
    + apply Dc_unit in Hu as (-> & u & Hu & ->); [|exact Hf]. exists num, u.
      rewrite firstn_sub. auto 8.
    + exists num, []. auto 8.
  - intros (He & num & u & -> & Hnum & Hu).
    apply fixedu_app in Hf as Hf'. destruct Hf' as [Hf1 Hf2].
    exists s', cs. split; [|apply at_end_nl in He; auto].
    exists (u ++ s'), [(2, num)]. split.
    + eexists _, _. split; [split; reflexivity|]. exists []. rewrite firstn_sub. split; [|reflexivity].
      destruct Hnum as [Hd|(ds & es & -> & Hd & He')].
      * apply digits_forallb in Hd as [Hn Hd]. exists (u ++ s'), []. split; [|right; auto].
        eexists _, _. split; [split; reflexivity|]. apply (Dc_plus n0 true). exists num. rewrite mem_icd_all. auto.
      * apply digits_forallb in Hd as [Hn Hd]. apply digits_forallb in He' as [Hn' Hd'].
        exists (DOT :: es ++ u ++ s'), []. split.
        -- eexists _, _. split; [split; reflexivity|]. apply (Dc_plus n0 true). exists ds.
           rewrite mem_icd_all, <- app_assoc. auto.
        -- left. exists (es ++ u ++ s'), []. split.
           ++ eexists _, _. split; [split; reflexivity|]. exists DOT. repeat split.
           ++ apply (Dc_plus n0 true). exists es. rewrite mem_icd_all. auto.
    + destruct Hu as [[-> ->]|[Hu ->]]; [right; auto|left].
      exists [(2, num)]. rewrite firstn_sub. split; [|reflexivity].
      apply Dc_unit; [exact Hf2|]. split; [reflexivity|]. exists u. auto.
Qed.

(** * Values *)
Local Open Scope Z_scope.

Lemma span_unique p (a b a' b' : str) : a ++ b = a' ++ b' ->
  forallb p a = true -> forallb p a' = true -> stops p b -> stops p b' -> a = a' /\ b = b'.
Proof.
  revert a'. induction a as [|c a IH]; intros [|c' a'] E Ha Ha' Hb Hb'; cbn in *.
  - auto.
  - subst b. cbn in Hb. apply andb_true_iff in Ha' as [H _]. congruence.
  - subst b'. cbn in Hb'. apply andb_true_iff in Ha as [H _]. congruence.
  - injection E as -> E. apply andb_true_iff in Ha as [_ Ha]. apply andb_true_iff in Ha' as [_ Ha'].
    destruct (IH a' E Ha Ha' Hb Hb') as [-> ->]. auto.
Qed.
Lemma nl_stops t : nl t -> stops is_d t.
Proof. intros [->| ->]; [exact I|reflexivity]. Qed.
Lemma uunits_head u : In u uunits -> exists c t, u = c :: t /\ is_upper_AZ c = true.
Proof.
  intros H. repeat (destruct H as [<-|H]; [eexists _, _; split; [reflexivity|reflexivity]|]). destruct H.
Qed.
Lemma uunits_no_nl u : In u uunits -> ~ In NL u.
Proof.
  intros H. repeat (destruct H as [<-|H]; [intros G; vm_compute in G; intuition discriminate|]). destruct H.
Qed.
Lemma upper_not_digit c : is_upper_AZ c = true -> is_d c = false.
Proof. unfold is_upper_AZ, is_d, between. lia. Qed.
Lemma uunit_stops u t : In u uunits -> stops is_d (u ++ t).
Proof. intros H. destruct (uunits_head u H) as (c & r & -> & Hc). cbn. now apply upper_not_digit. Qed.

(** The end of a string is at most one newline. *)
Lemma nl_unique (a b e e' : str) : a ++ e = b ++ e' -> nl e -> nl e' -> ~ In NL a -> ~ In NL b ->
  a = b /\ e = e'.
Proof.
  intros E [->| ->] [->| ->] Ha Hb; rewrite ?app_nil_r in E.
  - auto.
  - subst a. exfalso. apply Ha. apply in_or_app. right. now left.
  - subst b. exfalso. apply Hb. apply in_or_app. right. now left.
  - apply app_inj_tail in E as [-> _]. auto.
Qed.
Lemma digits_no c s : digits s -> is_d c = false -> ~ In c s.
Proof.
  intros [_ H] Hc Hin. specialize (H c Hin). unfold is_d, between in Hc. lia.
Qed.

(** Numbers have a unique end. *)
Lemma number_unique n1 n2 t1 t2 : number n1 -> number n2 -> n1 ++ t1 = n2 ++ t2 ->
  stops (fun c => is_d c || (c =? DOT)%N) t1 -> stops (fun c => is_d c || (c =? DOT)%N) t2 -> n1 = n2 /\ t1 = t2.
Proof.
  intros H1 H2 E S1 S2. eapply span_unique; eauto.
  - destruct H1 as [H|(ds & es & -> & H & H')].
    + apply digits_forallb in H as [_ H]. revert H. apply forallb_impl. intros c ->. reflexivity.
    + apply digits_forallb in H as [_ H]. apply digits_forallb in H' as [_ H'].
      rewrite forallb_app. cbn [forallb]. rewrite N.eqb_refl, orb_true_r.
      apply andb_true_iff. split; [revert H|cbn [andb]; revert H']; apply forallb_impl; intros c ->; reflexivity.
  - destruct H2 as [H|(ds & es & -> & H & H')].
    + apply digits_forallb in H as [_ H]. revert H. apply forallb_impl. intros c ->. reflexivity.
    + apply digits_forallb in H as [_ H]. apply digits_forallb in H' as [_ H'].
      rewrite forallb_app. cbn [forallb]. rewrite N.eqb_refl, orb_true_r.
      apply andb_true_iff. split; [revert H|cbn [andb]; revert H']; apply forallb_impl; intros c ->; reflexivity.
Qed.

(** Upper-casing does not touch digits and dots and maps the units to [uunits]. *)
Lemma upper_app a b : upper (a ++ b) = upper a ++ upper b.
Proof. apply map_app. Qed.
Lemma upper_c_id c : is_d c || (c =? DOT)%N || (c =? NL)%N = true -> upper_c c = c.
Proof.
  intros H. unfold upper_c. destruct (is_lower_az c || _) eqn:E; [|reflexivity].
  unfold is_d, is_lower_az, between, DOT, NL in *. lia.
Qed.
Lemma upper_c_id_inv c : is_d (upper_c c) || (upper_c c =? DOT)%N || (upper_c c =? NL)%N = true -> upper_c c = c.
Proof.
  unfold upper_c. destruct (is_lower_az c || _) eqn:E; [|reflexivity].
  unfold is_d, is_lower_az, between, DOT, NL in *. lia.
Qed.
Lemma upper_digits ds : forallb is_d ds = true -> upper ds = ds.
Proof.
  induction ds as [|c t IH]; [reflexivity|]. cbn [forallb upper map]. rewrite andb_true_iff. intros [Hc Ht].
  f_equal; [apply upper_c_id; now rewrite Hc|now apply IH].
Qed.
Lemma upper_inv_digits s ds : forallb is_d ds = true -> upper s = ds -> s = ds.
Proof.
  intros H <-. induction s as [|c t IH]; [reflexivity|].
  cbn [upper map forallb] in *. apply andb_true_iff in H as [Hc Ht]. f_equal.
  - symmetry. apply upper_c_id_inv. now rewrite Hc.
  - now apply IH.
Qed.
Lemma upper_split s a b : upper s = a ++ b -> exists a' b', s = a' ++ b' /\ upper a' = a /\ upper b' = b.
Proof. intros H. apply map_eq_app in H as (a' & b' & -> & <- & <-). eauto. Qed.
Lemma upper_nl t : nl (upper t) <-> nl t.
Proof.
  unfold nl. split.
  - intros [H|H].
    + destruct t; [now left|discriminate].
    + destruct t as [|c [|d t]]; try discriminate. injection H as H. right. f_equal.
      rewrite <- H. symmetry. apply upper_c_id_inv. now rewrite H.
  - intros [->| ->]; [now left|now right].
Qed.
Lemma upper_nl_eq t : nl t -> upper t = t.
Proof. intros [->| ->]; reflexivity. Qed.
Lemma upper_number s : number s -> upper s = s.
Proof.
  intros [H|(ds & es & -> & H & H')].
  - apply upper_digits. now apply digits_forallb in H.
  - rewrite upper_app. cbn [upper map]. fold (upper es).
    rewrite !upper_digits by (now apply digits_forallb). reflexivity.
Qed.
Lemma upper_number_inv s n : number n -> upper s = n -> s = n.
Proof.
  intros [H|(ds & es & -> & H & H')] E.
  - apply upper_inv_digits; [now apply digits_forallb in H|exact E].
  - apply upper_split in E as (a & b & -> & Ea & Eb).
    destruct b as [|c b]; [discriminate|]. cbn [upper map] in Eb. injection Eb as Ec Eb.
    f_equal; [apply upper_inv_digits; [now apply digits_forallb in H|exact Ea]|].
    f_equal; [|apply upper_inv_digits; [now apply digits_forallb in H'|exact Eb]].
    rewrite <- Ec. symmetry. apply upper_c_id_inv. now rewrite Ec.
Qed.
Lemma upper_c_letter c x : is_upper_AZ x = true -> (upper_c c = x <-> c = x \/ c = (x + 32)%N).
Proof.
  intros Hx. unfold upper_c. destruct (is_lower_az c || _) eqn:E;
    unfold is_upper_AZ, is_lower_az, between in *; lia.
Qed.
Lemma prefix_upper c k : prefix_exp c k <-> In (upper_c c, k) prefixes.
Proof.
  unfold prefix_exp. split.
  - intros (u & Hu & Hc).
    assert (E : upper_c c = u); [|now rewrite E].
    apply upper_c_letter; [|exact Hc].
    repeat (destruct Hu as [Hu|Hu]; [injection Hu as <- _; reflexivity|]). destruct Hu.
  - intros H. exists (upper_c c). split; [exact H|]. apply upper_c_letter; [|reflexivity].
    remember (upper_c c) as u. clear Hequ.
    repeat (destruct H as [H|H]; [injection H as <- _; reflexivity|]). destruct H.
Qed.
Lemma isB_upper c : isB c <-> upper_c c = 66%N.
Proof. unfold isB. now rewrite upper_c_letter. Qed.
Lemma isI_upper c : isI c <-> upper_c c = 73%N.
Proof. unfold isI. now rewrite upper_c_letter. Qed.

(** What the code computes from an upper-case unit. *)
Definition unit_bytes (u : str) : option Z :=
  match index_of (firstn 1 u) UNITS with
  | Some exp => Some ((if str_eqb (skipn 1 u) ($"B") then 1000 else 1024) ^ exp)
  | None => None
  end.
Lemma unit_upper u n : SizeUnit u n -> In (upper u) uunits /\ unit_bytes (upper u) = Some n.
Proof.
  intros H. destruct H as [c k H|c i b k H Hi Hb|c b k H Hb];
    apply prefix_upper in H; cbn [upper map];
    try apply isI_upper in Hi; try apply isB_upper in Hb; rewrite ?Hi, ?Hb;
    remember (upper_c c) as x; clear Heqx;
    repeat (destruct H as [H|H]; [injection H as <- <-; split; [vm_compute; tauto|vm_compute; reflexivity]|]);
    destruct H.
Qed.
Lemma unit_of_upper u : In (upper u) uunits -> exists n, SizeUnit u n.
Proof.
  intros H. assert (G : exists x r, upper u = x :: r /\ (exists k, In (x, k) prefixes) /\
    (r = [] \/ r = [66%N] \/ r = [73%N; 66%N])).
  { remember (upper u) as w. clear Heqw.
    repeat (destruct H as [<-|H]; [eexists _, _; split; [reflexivity|];
      split; [eexists; vm_compute; tauto|vm_compute; tauto]|]). destruct H. }
  destruct G as (x & r & E & (k & Hk) & Hr). destruct u as [|c u]; [discriminate|].
  cbn [upper map] in E. injection E as Ec Eu. subst x. apply prefix_upper in Hk.
  destruct Hr as [->|[->| ->]].
  - destruct u; [|discriminate]. eexists. eapply su_short; eassumption.
  - destruct u as [|b [|? ?]]; try discriminate. injection Eu as Eb. apply isB_upper in Eb.
    eexists. eapply su_si; eassumption.
  - destruct u as [|i [|b [|? ?]]]; try discriminate. injection Eu as Ei Eb.
    apply isB_upper in Eb. apply isI_upper in Ei. eexists. eapply su_iec; eassumption.
Qed.

(** The three outcomes. *)
Definition sizeA (s ds : str) : Prop := exists b e, s = ds ++ b ++ e /\ digits ds /\
  (b = [] \/ exists c, b = [c] /\ isB c) /\ nl e.
Definition sizeB (s num u : str) (n : Z) : Prop := exists e, s = num ++ u ++ e /\ number num /\ SizeUnit u n /\ nl e.

Lemma matchA s ds : sizeA s ds -> exists t, re_match reA (upper s) = Some (t, [(1%nat, ds)]).
Proof.
  intros (b & e & -> & Hd & Hb & He).
  destruct (re_match reA _) as [[t cs]|] eqn:E.
  - exists t. apply re_match_some in E. apply DcA in E; [|apply fixedu_upper].
    destruct E as (Ht & ds' & b' & E & Hd' & Hb' & ->). do 4 f_equal.
    rewrite !upper_app in E. apply digits_forallb in Hd as [Hn Hd]. rewrite upper_digits in E by assumption.
    apply (span_unique is_d) in E; [symmetry; apply E|assumption|now apply digits_forallb in Hd'| |].
    + destruct Hb as [->|(c & -> & Hc)]; cbn [upper map app].
      * fold (upper e). rewrite upper_nl_eq by assumption. now apply nl_stops.
      * apply isB_upper in Hc. now rewrite Hc.
    + destruct Hb' as [->| ->]; [now apply nl_stops|reflexivity].
  - exfalso. rewrite re_match_none in E. eapply E. apply DcA; [apply fixedu_upper|].
    split; [apply upper_nl; exact He|].
    apply digits_forallb in Hd as Hd'. destruct Hd' as [Hn Hd'].
    exists ds, (upper b). rewrite !upper_app, (upper_digits ds) by assumption.
    split; [reflexivity|]. split; [exact Hd|]. split; [|reflexivity].
    destruct Hb as [->|(c & -> & Hc)]; [now left|right]. apply isB_upper in Hc. cbn. now rewrite Hc.
Qed.
Lemma matchA_inv s t cs : re_match reA (upper s) = Some (t, cs) -> exists ds, sizeA s ds /\ cs = [(1%nat, ds)].
Proof.
  intros E. apply re_match_some in E. apply DcA in E; [|apply fixedu_upper].
  destruct E as (Ht & ds & b & E & Hd & Hb & ->). exists ds. split; [|reflexivity].
  apply upper_split in E as (x & y & -> & Ex & Ey). apply upper_split in Ey as (z & e & -> & Ez & <-).
  apply (proj1 (upper_nl _)) in Ht. apply upper_inv_digits in Ex; [|now apply digits_forallb in Hd]. subst x.
  exists z, e. split; [reflexivity|]. split; [exact Hd|]. split; [|exact Ht].
  destruct Hb as [->| ->].
  - left. now destruct z.
  - right. destruct z as [|c [|? ?]]; try discriminate. injection Ez as Ez. exists c.
    split; [reflexivity|]. now apply isB_upper.
Qed.
Lemma number_stops_unit u e : In u uunits -> nl e -> stops (fun c => is_d c || (c =? DOT)%N) (u ++ e).
Proof.
  intros Hu He. destruct (uunits_head u Hu) as (c & t & -> & Hc). cbn.
  unfold is_upper_AZ, is_d, between, DOT in *. lia.
Qed.
Lemma number_stops_nl e : nl e -> stops (fun c => is_d c || (c =? DOT)%N) e.
Proof. intros [->| ->]; [exact I|reflexivity]. Qed.
Lemma matchB s num u n : sizeB s num u n ->
  exists t, re_match reB (upper s) = Some (t, [(3%nat, upper u); (2%nat, num)]).
Proof.
  intros (e & -> & Hnum & Hu & He). apply unit_upper in Hu as [Hu _].
  assert (Ee : upper e = e) by now apply upper_nl_eq.
  destruct (re_match reB _) as [[t cs]|] eqn:E.
  - exists t. apply re_match_some in E. apply DcB in E; [|apply fixedu_upper].
    destruct E as (Ht & num' & u' & E & Hnum' & Hu').
    rewrite !upper_app, upper_number, Ee in E by assumption.
    apply number_unique in E as [<- E]; auto.
    + destruct Hu' as [[-> ->]|[Hu' ->]].
      * exfalso. destruct (uunits_head _ Hu) as (c & r & Eu & Hc). rewrite Eu in E. cbn in E.
        destruct Ht as [->| ->]; [discriminate|]. injection E as -> _. discriminate.
      * apply nl_unique in E as [-> _]; auto using uunits_no_nl.
    + now apply number_stops_unit.
    + destruct Hu' as [[-> _]|[Hu' _]]; [now apply number_stops_nl|now apply number_stops_unit].
  - exfalso. rewrite re_match_none in E. eapply E. apply DcB; [apply fixedu_upper|].
    split; [exact He|]. exists num, (upper u). rewrite !upper_app, upper_number, Ee by assumption.
    split; [reflexivity|]. split; [exact Hnum|]. right. split; [exact Hu|reflexivity].
Qed.
Lemma matchB_inv s t cs : re_match reB (upper s) = Some (t, cs) ->
  group 1 cs = None /\
  (group 3 cs = None \/ exists num u n, sizeB s num u n /\ cs = [(3%nat, upper u); (2%nat, num)]).
Proof.
  intros E. apply re_match_some in E. apply DcB in E; [|apply fixedu_upper].
  destruct E as (Ht & num & u & E & Hnum & Hu).
  destruct Hu as [[-> ->]|[Hu ->]]; [cbn; auto|]. split; [reflexivity|]. right.
  apply upper_split in E as (x & y & -> & Ex & Ey). apply upper_split in Ey as (z & e & -> & Ez & <-).
  apply (proj1 (upper_nl _)) in Ht. apply upper_number_inv in Ex; [|assumption]. subst x u.
  destruct (unit_of_upper z Hu) as [n Hn]. exists num, z, n. split; [|reflexivity]. now exists e.
Qed.
Lemma sizeAB s ds num u n : sizeA s ds -> sizeB s num u n -> False.
Proof.
  intros HA HB. destruct (matchA s ds HA) as [t E]. destruct HA as (b & e & -> & Hd & Hb & He).
  destruct HB as (e' & E' & Hnum & Hu & He'). apply unit_upper in Hu as [Hu Hv].
  assert (Eu : upper (ds ++ b ++ e) = upper (num ++ u ++ e')) by now rewrite E'. clear E'.
  rewrite !upper_app, (upper_number num), (upper_nl_eq e), (upper_nl_eq e') in Eu by assumption.
  rewrite (upper_digits ds) in Eu by (now apply digits_forallb in Hd).
  assert (Hb' : upper b = [] \/ upper b = [66%N]).
  { destruct Hb as [->|(c & -> & Hc)]; [now left|right]. apply isB_upper in Hc. cbn. now rewrite Hc. }
  apply number_unique in Eu as [_ Eu]; auto; [|now left| |now apply number_stops_unit].
  - destruct (uunits_head _ Hu) as (c & r & Er & Hc). rewrite Er in Eu, Hu. cbn [app] in Eu.
    destruct Hb' as [Hb'|Hb']; rewrite Hb' in Eu; cbn [app] in Eu.
    + destruct He as [->| ->]; [discriminate|]. injection Eu as <- _. discriminate.
    + injection Eu as <- _.
      clear -Hu. repeat (destruct Hu as [Hu|Hu]; [discriminate|]). destruct Hu.
  - destruct Hb' as [->| ->]; [now apply number_stops_nl|reflexivity].
Qed.

Lemma parse_size_alt s : re_match size_re (upper s) =
  orelse (re_match reA (upper s)) (re_match reB (upper s)).
Proof. rewrite size_re_eq. reflexivity. Qed.

Lemma parse_size_A s ds : sizeA s ds -> parse_size s = Ok (decimal ds).
Proof.
  intros H. unfold parse_size. rewrite parse_size_alt. destruct (matchA s ds H) as [t ->].
  cbn [orelse group Nat.eqb]. destruct H as (b & e & _ & Hd & _). apply digits_forallb in Hd as [Hn Hd].
  rewrite py_int_digits by assumption. now rewrite decimal_val.
Qed.
Lemma parse_size_B s num u n : sizeB s num u n ->
  parse_size s = fint (fmul (float_of num) (rn n 1)).
Proof.
  intros H. unfold parse_size. rewrite parse_size_alt.
  destruct (re_match reA (upper s)) as [[t cs]|] eqn:E.
  { apply matchA_inv in E as (ds & HA & _). exfalso. eapply sizeAB; eauto. }
  destruct (matchB s num u n H) as [t ->]. destruct H as (e & _ & Hnum & Hu & _).
  apply unit_upper in Hu as [_ Hu]. unfold unit_bytes in Hu.
  cbn [orelse group Nat.eqb]. destruct (index_of _ UNITS); [|discriminate].
  apply (f_equal (fun o => match o with Some x => x | None => 0 end)) in Hu. cbn beta iota in Hu.
  rewrite <- Hu. reflexivity.
Qed.
Lemma parse_size_C s : (forall ds, ~ sizeA s ds) -> (forall num u n, ~ sizeB s num u n) ->
  parse_size s = Err ValueError.
Proof.
  intros HA HB. unfold parse_size. rewrite parse_size_alt.
  destruct (re_match reA (upper s)) as [[t cs]|] eqn:E.
  { apply matchA_inv in E as (ds & H & _). now apply HA in H. }
  cbn [orelse]. destruct (re_match reB (upper s)) as [[t cs]|] eqn:E2; [|reflexivity].
  apply matchB_inv in E2 as [-> [->|(num & u & n & H & _)]]; [reflexivity|].
  now apply HB in H.
Qed.

Lemma size_text_iff s : (exists t e, s = t ++ e /\ nl e /\ SizeText t) <->
  ((exists ds, sizeA s ds) \/ exists num u n, sizeB s num u n).
Proof.
  split.
  - intros (t & e & -> & He & H). destruct H as [ds H|ds b H Hb|ds u n H Hu|ds es u n H H' Hu].
    + left. exists ds, [], e. auto.
    + left. exists ds, [b], e. rewrite <- app_assoc. eauto 8.
    + right. exists ds, u, n, e. rewrite <- app_assoc. split; [reflexivity|].
      split; [now left|auto].
    + right. exists (ds ++ DOT :: es), u, n, e. rewrite <- !app_assoc. cbn [app]. rewrite <- !app_assoc.
      split; [reflexivity|]. split; [right; exists ds, es; auto|auto].
  - intros [(ds & b & e & -> & H & Hb & He)|(num & u & n & e & -> & Hnum & Hu & He)].
    + exists (ds ++ b), e. rewrite <- app_assoc. split; [reflexivity|]. split; [exact He|].
      destruct Hb as [->|(c & -> & Hc)]; [rewrite app_nil_r; now constructor|now constructor].
    + exists (num ++ u), e. rewrite <- app_assoc. split; [reflexivity|]. split; [exact He|].
      destruct Hnum as [H|(ds & es & -> & H & H')]; [eapply st_int; eauto|].
      rewrite <- app_assoc. eapply st_dec; eauto.
Qed.
Lemma size_cases s : (exists ds, sizeA s ds) \/ (exists num u n, sizeB s num u n) \/
  ((forall ds, ~ sizeA s ds) /\ forall num u n, ~ sizeB s num u n).
Proof.
  destruct (re_match reA (upper s)) as [[t cs]|] eqn:E.
  { apply matchA_inv in E as (ds & H & _). eauto. }
  destruct (re_match reB (upper s)) as [[t cs]|] eqn:E2.
  - assert (E3 := E2). apply matchB_inv in E2 as [_ [G|(num & u & n & H & _)]]; [|eauto 6].
    right. right. split.
    + intros ds H. destruct (matchA s ds H). congruence.
    + intros num u n H. destruct (matchB s num u n H) as [t' E'].
      rewrite E3 in E'. injection E' as _ ->. discriminate G.
  - right. right. split.
    + intros ds H. destruct (matchA s ds H). congruence.
    + intros num u n H. destruct (matchB s num u n H). congruence.
Qed.

(** Only sizes, possibly followed by a newline, are accepted. *)
Lemma parse_size_accepts s : parse_size s = Err ValueError <->
  ~ exists t e, s = t ++ e /\ nl e /\ SizeText t.
Proof.
  rewrite size_text_iff. split.
  - intros E [[ds H]|(num & u & n & H)].
    + rewrite (parse_size_A s ds H) in E. discriminate.
    + rewrite (parse_size_B s num u n H) in E. destruct (fmul _ _); discriminate.
  - intros H. apply parse_size_C; [intros ds Hd|intros num u n Hd]; apply H; eauto 6.
Qed.
Lemma parse_size_errors s e : parse_size s = Err e -> e = ValueError \/ e = OverflowErr.
Proof.
  destruct (size_cases s) as [(ds & H)|[(num & u & n & H)|[HA HB]]].
  - now rewrite (parse_size_A s ds H).
  - rewrite (parse_size_B s num u n H). destruct (fmul _ _); cbn; [|discriminate]. intros [= <-]. auto.
  - rewrite parse_size_C by assumption. intros [= <-]. auto.
Qed.
Lemma parse_size_bytes ds : digits ds -> parse_size ds = Ok (decimal ds).
Proof. intros H. apply parse_size_A. exists [], []. rewrite app_nil_r. unfold nl. auto. Qed.
Lemma parse_size_b ds b : digits ds -> isB b -> parse_size (ds ++ [b]) = Ok (decimal ds).
Proof. intros H Hb. apply parse_size_A. exists [b], []. rewrite app_nil_r. unfold nl. eauto 8. Qed.

Lemma decimal_nonneg s : forallb is_d s = true -> 0 <= decimal s.
Proof. intros H. rewrite decimal_val by assumption. lia. Qed.
Lemma float_of_int ds : digits ds -> float_of ds = rn (decimal ds) 1.
Proof.
  intros H. unfold float_of. rewrite split_on_nosep by (now apply (digits_no DOT)).
  apply digits_forallb in H as [_ H]. now rewrite decimal_val.
Qed.
Lemma float_of_dec ds es : digits ds -> digits es ->
  float_of (ds ++ DOT :: es) = rn (decimal (ds ++ es)) (10 ^ Z.of_nat (length es)).
Proof.
  intros H H'. unfold float_of. rewrite split_on_app by (now apply (digits_no DOT)).
  rewrite split_on_nosep by (now apply (digits_no DOT)).
  rewrite decimal_val; [reflexivity|]. rewrite forallb_app.
  apply digits_forallb in H as [_ ->]. apply digits_forallb in H' as [_ ->]. reflexivity.
Qed.
Lemma prefix_range c k : prefix_exp c k -> 1 <= k <= 8.
Proof.
  intros (u & H & _). repeat (destruct H as [H|H]; [injection H as _ <-; lia|]). destruct H.
Qed.
Lemma pow1024 k : 0 <= k -> 1024 ^ k = 1 * 2 ^ (10 * k).
Proof. intros H. rewrite Z.pow_mul_r by lia. change (2 ^ 10) with 1024. lia. Qed.
Lemma pow1000 k : 0 <= k -> 1000 ^ k = 125 ^ k * 2 ^ (3 * k).
Proof.
  intros H. rewrite Z.pow_mul_r by lia. change (2 ^ 3) with 8. rewrite <- Z.pow_mul_l. reflexivity.
Qed.

(** Powers of 1024: exact for numbers below 2^53. *)
Lemma parse_size_1024 ds u k : digits ds -> SizeUnit u (1024 ^ k) -> 1 <= k <= 8 -> decimal ds < 2 ^ 53 ->
  parse_size (ds ++ u) = Ok (decimal ds * 1024 ^ k).
Proof.
  intros H Hu Hk Hlt. rewrite (parse_size_B _ ds u (1024 ^ k)).
  - rewrite float_of_int by assumption. rewrite pow1024 by lia.
    apply digits_forallb in H as [_ H]. assert (N := decimal_nonneg ds H).
    apply product_exact; try lia.
  - exists []. rewrite app_nil_r. split; [reflexivity|]. split; [now left|]. split; [exact Hu|now left].
Qed.
(** Powers of 1000: exact if the result without its obvious factor 2^3k is below 2^53. *)
Lemma parse_size_1000 ds u k : digits ds -> SizeUnit u (1000 ^ k) -> 1 <= k <= 8 ->
  decimal ds * 125 ^ k < 2 ^ 53 -> 125 ^ k < 2 ^ 53 ->
  parse_size (ds ++ u) = Ok (decimal ds * 1000 ^ k).
Proof.
  intros H Hu Hk Hlt Hlt2. rewrite (parse_size_B _ ds u (1000 ^ k)).
  - rewrite float_of_int by assumption. rewrite pow1000 by lia.
    apply digits_forallb in H as [_ H]. assert (N := decimal_nonneg ds H).
    assert (0 < 125 ^ k) by (apply Z.pow_pos_nonneg; lia).
    apply product_exact; lia.
  - exists []. rewrite app_nil_r. split; [reflexivity|]. split; [now left|]. split; [exact Hu|now left].
Qed.
(** Decimal fractions: the integer part, if the reduced numerator is below 2^53. *)
Lemma parse_size_dec ds es u k g : digits ds -> digits es -> SizeUnit u (1024 ^ k) -> 1 <= k <= 8 -> 0 < g ->
  (g | decimal (ds ++ es) * 1024 ^ k) -> (g | 10 ^ Z.of_nat (length es)) ->
  decimal (ds ++ es) * 1024 ^ k < g * 2 ^ 53 ->
  parse_size (ds ++ DOT :: es ++ u) = Ok (decimal (ds ++ es) * 1024 ^ k / 10 ^ Z.of_nat (length es)).
Proof.
  intros H H' Hu Hk Hg D1 D2 Hlt. rewrite (parse_size_B _ (ds ++ DOT :: es) u (1024 ^ k)).
  - rewrite float_of_dec by assumption. rewrite pow1024, Z.mul_1_l in * by lia.
    assert (F : forallb is_d (ds ++ es) = true).
    { rewrite forallb_app. apply digits_forallb in H as [_ ->]. apply digits_forallb in H' as [_ ->]. reflexivity. }
    assert (N := decimal_nonneg _ F).
    apply product_floor with g; try lia; try assumption.
  - exists []. rewrite app_nil_r, <- app_assoc. split; [reflexivity|].
    split; [right; exists ds, es; auto|]. split; [exact Hu|now left].
Qed.
