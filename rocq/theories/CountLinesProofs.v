(** Proofs about --count: the lines, and when printing fails. *)
From Coq Require Import List NArith ZArith Bool Lia Permutation.
From Verif Require Import Py TypeModel FieldModel SortModel SortSpec SortProofs NaturalProofs CountModel CountSpec CountProofs CountLoopProofs
  CountPrintProofs.
Import ListNotations.

(** * Sort keys of texts *)
Lemma isdigit_numeral s : isdigit s = true <-> numeral s.
Proof.
  assert (H : forallb is_isdigit s = true <-> Forall (fun c => (48 <= c <= 57)%N \/ c = 178%N \/ c = 179%N \/ c = 185%N) s).
  { rewrite forallb_forall, Forall_forall. split; intros H c Hc; specialize (H c Hc); unfold is_isdigit in *.
    - rewrite !orb_true_iff, !N.eqb_eq, is_d_iff in H. tauto.
    - rewrite !orb_true_iff, !N.eqb_eq, is_d_iff. tauto. }
  unfold numeral. destruct s as [|c s]; [split; [discriminate|intros [X _]; now elim X]|].
  unfold isdigit. rewrite H. split; [split; [discriminate|auto]|tauto].
Qed.
Lemma decimal_d s : decimal_digits s <-> forallb is_d s = true.
Proof. unfold decimal_digits. rewrite Forall_forall, forallb_forall. split; intros H c Hc; apply is_d_iff; auto. Qed.
Lemma token_decimal s : numeral s -> decimal_digits s -> exists z, token s = Ok (PInt z).
Proof.
  intros N D. unfold token. rewrite (proj2 (isdigit_numeral s) N). apply decimal_d in D.
  rewrite py_int_digits; [eauto|apply N|exact D].
Qed.
Lemma token_text s : ~ numeral s -> token s = Ok (PStr s).
Proof. intros N. unfold token. destruct (isdigit s) eqn:E; auto. apply isdigit_numeral in E. contradiction. Qed.
Lemma numeral_strip s : numeral s -> strip s = s.
Proof.
  intros [_ H]. assert (P : forall c, In c s -> is_space c = false).
  { intros c Hc. rewrite Forall_forall in H. destruct (H c Hc) as [D|[-> | [-> | ->]]]; [apply is_d_not_space; now apply is_d_iff|reflexivity|reflexivity|reflexivity]. }
  unfold strip, strip_p. rewrite lstrip_p_id.
  - apply rstrip_p_id. destruct (rev s) as [|c r] eqn:E; [easy|]. apply P. rewrite in_rev. unfold str, char in *. rewrite E. now left.
  - destruct s as [|c r]; [easy|]. apply P. now left.
Qed.
Lemma int_digits_none s : ~ In 95%N s -> forallb is_d s = false -> int_digits s = None.
Proof.
  induction s as [|c t IH]; [discriminate|]. cbn [forallb int_digits]. intros U F. destruct (is_d c); [|auto]. cbn [andb] in F.
  destruct t as [|u t']; [discriminate F|]. destruct (N.eqb_spec u 95) as [->|_]; [exfalso; apply U; right; now left|].
  rewrite IH; auto. intros X. apply U. now right.
Qed.
Lemma token_bad s : numeral s -> ~ decimal_digits s -> token s = Err ValueError.
Proof.
  intros N D. unfold token. rewrite (proj2 (isdigit_numeral s) N). rewrite decimal_d in D. apply not_true_is_false in D.
  assert (P : forall x, In x s -> x <> 95%N /\ x <> 43%N /\ x <> 45%N).
  { destruct N as [_ N]. rewrite Forall_forall in N. intros x Hx. destruct (N x Hx) as [K|[-> | [-> | ->]]]; lia. }
  unfold py_int. rewrite (numeral_strip s N). destruct s as [|c r]; [reflexivity|]. cbv zeta.
  destruct (P c (or_introl eq_refl)) as (_ & P1 & P2).
  rewrite (proj2 (N.eqb_neq c 43) P1), (proj2 (N.eqb_neq c 45) P2). rewrite int_digits_none; auto.
  intros X. now destruct (P 95%N X).
Qed.
Lemma numeral_dec s : numeral s \/ ~ numeral s.
Proof. destruct (isdigit s) eqn:E; [left; now apply isdigit_numeral|right]. intros N. apply isdigit_numeral in N. congruence. Qed.
Lemma decimal_dec s : decimal_digits s \/ ~ decimal_digits s.
Proof. rewrite decimal_d. destruct (forallb is_d s); auto. Qed.

Lemma list_sort_iff {A} (key : A -> res pv) reverse l : (exists out, list_sort key reverse l = Ok out) <->
  exists k, (forall a, In a l -> key a = Ok (k a)) /\ forall a b, In a l -> In b l -> comparable (k a) (k b) = true.
Proof.
  split.
  - intros [out E]. destruct (list_sort_spec _ _ _ _ E) as (k & K & _). exists k. split; [exact K|].
    unfold list_sort in E. rewrite (mapr_total key k l K) in E. cbn [bindr] in E.
    destruct (all_comparable (map k l)) eqn:C; [|discriminate]. rewrite all_comparable_iff in C.
    intros a b Ha Hb. apply C; now apply in_map.
  - intros (k & K & C). now apply (list_sort_ok key k).
Qed.
Lemma texts_sort {T} (l : list (str * T)) : (exists out, list_sort (fun t => token (fst t)) false l = Ok out) <->
  (forall s, In s (map fst l) -> numeral s -> decimal_digits s) /\
  ((forall s, In s (map fst l) -> numeral s) \/ (forall s, In s (map fst l) -> ~ numeral s)).
Proof.
  rewrite list_sort_iff. split.
  - intros (k & K & C).
    assert (D : forall s, In s (map fst l) -> numeral s -> decimal_digits s).
    { intros s Hs N. destruct (decimal_dec s) as [|X]; auto. apply in_map_iff in Hs. destruct Hs as (t & <- & Ht).
      specialize (K t Ht). cbn beta in K. rewrite (token_bad _ N X) in K. discriminate. }
    split; [exact D|]. destruct l as [|t l].
    { left. intros s []. }
    destruct (numeral_dec (fst t)) as [N|N]; [left|right]; intros s Hs; apply in_map_iff in Hs; destruct Hs as (u & <- & Hu).
    + destruct (numeral_dec (fst u)) as [|N']; auto. exfalso.
      specialize (C t u (or_introl eq_refl) Hu). assert (K1 := K t (or_introl eq_refl)). assert (K2 := K u Hu). cbn beta in K1, K2.
      destruct (token_decimal (fst t) N) as [z Ez]; [apply D; auto; apply in_map; now left|]. rewrite Ez in K1. rewrite (token_text _ N') in K2.
      injection K1 as K1. injection K2 as K2. rewrite <- K1, <- K2 in C. discriminate C.
    + intros N'. specialize (C t u (or_introl eq_refl) Hu). assert (K1 := K t (or_introl eq_refl)). assert (K2 := K u Hu). cbn beta in K1, K2.
      destruct (token_decimal (fst u) N') as [z Ez]; [apply D; auto; now apply in_map|]. rewrite Ez in K2. rewrite (token_text _ N) in K1.
      injection K1 as K1. injection K2 as K2. rewrite <- K1, <- K2 in C. discriminate C.
  - intros (D & H). exists (fun t => match token (fst t) with Ok x => x | Err _ => PInt 0 end). split.
    + intros t Ht. destruct (numeral_dec (fst t)) as [N|N].
      * destruct (token_decimal (fst t) N) as [z Ez]; [apply D; auto; now apply in_map|]. now rewrite Ez.
      * now rewrite (token_text _ N).
    + intros t u Ht Hu. destruct H as [H|H].
      * destruct (token_decimal (fst t)) as [x Ex]; [apply H; now apply in_map|apply D; [now apply in_map|apply H; now apply in_map]|].
        destruct (token_decimal (fst u)) as [y Ey]; [apply H; now apply in_map|apply D; [now apply in_map|apply H; now apply in_map]|].
        now rewrite Ex, Ey.
      * rewrite !token_text; [reflexivity|apply H; now apply in_map|apply H; now apply in_map].
Qed.

Lemma mapr_ex {X Y} (h : X -> res Y) l : (exists k, mapr h l = Ok k) <-> forall x, In x l -> exists y, h x = Ok y.
Proof.
  induction l as [|x l IH]; cbn [mapr].
  - split; [intros _ x []|eauto].
  - split.
    + destruct (h x) as [y|e] eqn:E; cbn [bindr]; [|intros [k H]; discriminate H].
      destruct (mapr h l) as [k|e]; cbn [bindr]; [|intros [k H]; discriminate H].
      intros _ z [<-|Hz]; eauto. apply IH; eauto.
    + intros H. destruct (H x (or_introl eq_refl)) as [y ->]. cbn [bindr].
      destruct (proj2 IH) as [k ->]; [intros z Hz; apply H; now right|]. cbn [bindr]. eauto.
Qed.
Lemma mapr_in {X Y} (h : X -> res Y) l : forall k, mapr h l = Ok k -> forall y, In y k <-> exists x, In x l /\ h x = Ok y.
Proof.
  induction l as [|x l IH]; cbn [mapr]; intros k E y.
  - injection E as <-. split; [intros []|intros (? & [] & _)].
  - destruct (h x) as [z|e] eqn:Ex; cbn [bindr] in E; [|discriminate].
    destruct (mapr h l) as [k'|e]; cbn [bindr] in E; [|discriminate]. injection E as <-. cbn [In]. rewrite (IH k' eq_refl). split.
    + intros [<-|(w & Hw & Ew)]; eauto.
    + intros (w & [<-|Hw] & Ew); [left; congruence|right; eauto].
Qed.

Section Lines.
  Context {A : Type}.
  Variable get : A -> str * str -> res value.
  Variable human : ty -> Z -> str.
  Variable fields : list field.
  Hypothesis different : NoDup (map ident fields).
  Hypothesis countable : forall f, In f fields -> count_of (f_type f) <> UNCOUNTABLE.
  Hypothesis names : NoDup ($"_total" :: map f_alias fields).
  Variable chunks : list (list A).
  Notation entries := (concat chunks).
  Hypothesis typed : well_typed get fields entries.
  Hypothesis clear_ : distinguishable get human fields entries.

  Lemma as_json : exists d, count_output human get fields true chunks = Ok (AsJson d) /\ NoDup (map fst d) /\
    (forall n x, In (n, x) d -> Item get human fields entries n x) /\ (forall n x, Item get human fields entries n x -> exists y, In (n, y) d).
  Proof.
    destruct (loop_inv get fields different countable chunks typed) as (c & E & INV).
    destruct (json_items get human fields entries different names typed clear_ c INV) as (d & E1 & H).
    exists d. split; [|exact H]. unfold count_output. rewrite E. cbn [bindr fst]. unfold print_count. rewrite E1. reflexivity.
  Qed.

  Lemma printable : (exists lines, count_output human get fields false chunks = Ok (AsLines lines)) <->
    forall f, In f fields -> count_of (f_type f) = COUNT -> uniform get human f entries.
  Proof.
    destruct (loop_inv get fields different countable chunks typed) as (c & E & INV).
    destruct (json_items get human fields entries different names typed clear_ c INV) as (d & E1 & N & H1 & H2).
    unfold count_output. rewrite E. cbn [bindr fst]. unfold print_count. rewrite E1. cbn [bindr].
    destruct (list_sort_ok (fun t : str * pcell => Ok (PStr (fst t))) (fun t => PStr (fst t)) false d) as [d' Ed]; [auto|reflexivity|].
    rewrite Ed. cbn [bindr]. destruct (list_sort_spec _ _ _ _ Ed) as (k & _ & P & _).
    assert (M : (exists lines, (do l <- mapr print_cell d'; Ok (AsLines (concat l))) = Ok (AsLines lines)) <-> exists k, mapr print_cell d' = Ok k).
    { destruct (mapr print_cell d'); cbn [bindr]; split; intros [x Hx]; try discriminate; eauto. }
    rewrite M, mapr_ex. clear M.
    assert (T : forall f l, Texts get human f entries l -> (exists out, list_sort (fun t => token (fst t)) false l = Ok out) <-> uniform get human f entries).
    { intros f l [TN TI]. rewrite texts_sort. unfold uniform.
      assert (S : forall s, In s (map fst l) <-> exists v, occurs get f v entries <> 0%nat /\ output human (f_type f) (f_modifier f) v = Ok s).
      { intros s. rewrite in_map_iff. split.
        - intros ([s' n] & <- & I). apply TI in I. destruct I as (v & O & Eo & _). eauto.
        - intros (v & O & Eo). exists (s, Z.of_nat (occurs get f v entries)). split; auto. apply TI. eauto. }
      split; intros (D & [X|X]); (split; [intros s Hs; apply D; now apply S|]); [left|right|left|right]; intros s Hs; apply X; now apply S. }
    split.
    - intros H f Hf CT. destruct (Nat.eq_dec (present_in get f entries) 0) as [Z|Z].
      + assert (O : forall v, occurs get f v entries = 0%nat).
        { intros v. destruct (Nat.eq_dec (occurs get f v entries) 0) as [|O]; auto. exfalso. unfold occurs, present_in in *.
          destruct (filter (has_value get f v) entries) as [|y q] eqn:F; [now elim O|].
          assert (I : In y (filter (has_value get f v) entries)) by (rewrite F; now left). apply filter_In in I. destruct I as [I X].
          assert (PY : In y (filter (present get f) entries)).
          { apply filter_In. split; auto. unfold present, has_value in *. destruct (get y (f_attribute f)); auto. }
          destruct (filter (present get f) entries); [destruct PY|discriminate Z]. }
        split; [|left]; intros s (v & X & _); elim X; apply O.
      + assert (I : exists l, In (f_alias f, PPer l) d /\ Texts get human f entries l).
        { assert (X : exists y, In (f_alias f, y) d).
          { destruct INV as (_ & K & _ & G). assert (Gf := G f Hf).
            destruct (dict_get ckey_eqb (KField f) c) as [[z|l]|] eqn:D; cbn [good] in Gf; [destruct Gf; congruence| |contradiction].
            destruct Gf as (_ & _ & Gp). destruct (per_texts get human fields entries typed clear_ f l Hf CT Gp) as (p & _ & Tp).
            apply (H2 _ (PPer p)). now constructor. }
          destruct X as [y Iy]. assert (Iy' := H1 _ _ Iy). remember (f_alias f) as n eqn:En. destruct Iy' as [NE|g Hg CT' _ _|g m s Hg CT' _ _ _|g l Hg CT' _ Tl].
          - exfalso. now apply (alias_total fields names f).
          - assert (g = f) by now apply (alias_inj fields names). subst g. congruence.
          - assert (g = f) by now apply (alias_inj fields names). subst g. congruence.
          - assert (g = f) by now apply (alias_inj fields names). subst g. eauto. }
        destruct I as (l & Il & Tl). apply (T f l Tl). destruct (H (f_alias f, PPer l)) as [y Ey]; [eapply Permutation_in; [exact P|exact Il]|].
        unfold print_cell in Ey. destruct (list_sort (fun t => token (fst t)) false l) as [o|e]; [eauto|discriminate Ey].
    - intros U [n x] I. apply (Permutation_in (l' := d)) in I; [|now symmetry].
      destruct (H1 n x I) as [NE|f Hf CT _ _|f m s Hf CT _ _ _|f l Hf CT _ Tl]; cbn [print_cell]; eauto.
      destruct (proj2 (T f l Tl) (U f Hf CT)) as [o ->]. cbn [bindr]. eauto.
  Qed.

  Lemma as_lines lines : count_output human get fields false chunks = Ok (AsLines lines) ->
    forall line, In line lines <-> Line get human fields entries line.
  Proof.
    destruct (loop_inv get fields different countable chunks typed) as (c & E & INV).
    destruct (json_items get human fields entries different names typed clear_ c INV) as (d & E1 & N & H1 & H2).
    unfold count_output. rewrite E. cbn [bindr fst]. unfold print_count. rewrite E1. cbn [bindr].
    destruct (list_sort_ok (fun t : str * pcell => Ok (PStr (fst t))) (fun t => PStr (fst t)) false d) as [d' Ed]; [auto|reflexivity|].
    rewrite Ed. cbn [bindr]. destruct (list_sort_spec _ _ _ _ Ed) as (k & _ & P & _).
    destruct (mapr print_cell d') as [ls|e] eqn:EL; cbn [bindr]; [|discriminate]. intros [= <-] line.
    rewrite in_concat. transitivity (exists n x l, In (n, x) d /\ print_cell (n, x) = Ok l /\ In line l).
    { split.
      - intros (l & Hl & Hi). apply (mapr_in _ _ _ EL) in Hl. destruct Hl as ([n x] & I & Ex).
        exists n, x, l. split; [eapply Permutation_in; [symmetry; exact P|exact I]|auto].
      - intros (n & x & l & I & Ex & Hi). exists l. split; auto. apply (mapr_in _ _ _ EL). exists (n, x).
        split; auto. eapply Permutation_in; [exact P|exact I]. }
    split.
    - intros (n & x & l & I & Ex & Hi). destruct (H1 n x I) as [NE|f Hf CT Pf Mf|f m s Hf CT Pf Mf Of|f p Hf CT Pf Tp]; cbn [print_cell] in Ex.
      + injection Ex as <-. destruct Hi as [<-|[]]. now apply line_total.
      + injection Ex as <-. destruct Hi as [<-|[]]. now apply line_sum.
      + injection Ex as <-. destruct Hi as [<-|[]]. eapply line_formatted; eauto.
      + destruct (list_sort (fun t => token (fst t)) false p) as [o|e] eqn:Eo; cbn [bindr] in Ex; [|discriminate]. injection Ex as <-.
        apply in_map_iff in Hi. destruct Hi as ([s n] & <- & Hi). destruct (list_sort_spec _ _ _ _ Eo) as (k' & _ & P' & _).
        apply (Permutation_in (l' := p)) in Hi; [|now symmetry]. apply (proj2 Tp) in Hi. destruct Hi as (v & Ov & Es & ->).
        cbn [fst snd]. eapply line_value; eauto.
    - assert (Q : forall n x, Item get human fields entries n x -> exists y, In (n, y) d /\ Item get human fields entries n y).
      { intros n x I. destruct (H2 n x I) as [y Iy]. exists y. auto. }
      assert (PRINT : forall n x, In (n, x) d -> exists l, print_cell (n, x) = Ok l).
      { intros n x I. assert (X := proj1 (mapr_ex print_cell d')). rewrite EL in X. apply X; [eauto|]. eapply Permutation_in; [exact P|exact I]. }
      intros [NE|f Hf CT Pf Mf|f m s Hf CT Pf Mf Of|f v s Hf CT Ov Es].
      + destruct (Q _ _ (item_total get human fields entries NE)) as (y & Iy & Jy). remember ($"_total") as n eqn:En in Iy, Jy.
        destruct Jy as [_|g Hg _ _ _|g m s Hg _ _ _ _|g l Hg _ _ _]; try (exfalso; now apply (alias_total fields names g)).
        eexists _, _, _. split; [exact Iy|]. split; [reflexivity|]. left. reflexivity.
      + destruct (Q _ _ (item_sum get human fields entries f Hf CT Pf Mf)) as (y & Iy & Jy). remember (f_alias f) as n eqn:En in Iy, Jy.
        destruct Jy as [_|g Hg C1 _ M1|g m s Hg C1 _ M1 _|g l Hg C1 _ _]; [exfalso; now apply (alias_total fields names f)| | |];
          (assert (g = f) by now apply (alias_inj fields names)); subst g; try congruence.
        eexists _, _, _. split; [exact Iy|]. split; [reflexivity|]. left. reflexivity.
      + destruct (Q _ _ (item_formatted get human fields entries f m s Hf CT Pf Mf Of)) as (y & Iy & Jy). remember (f_alias f) as n eqn:En in Iy, Jy.
        destruct Jy as [_|g Hg C1 _ M1|g m' s' Hg C1 _ M1 O1|g l Hg C1 _ _]; [exfalso; now apply (alias_total fields names f)| | |];
          (assert (g = f) by now apply (alias_inj fields names)); subst g; try congruence.
        eexists _, _, _. split; [exact Iy|]. split; [reflexivity|]. left. assert (m' = m) by congruence. subst m'. assert (s' = s) by congruence. now subst s'.
      + assert (Pf : present_in get f entries <> 0%nat).
        { unfold occurs, present_in in *. destruct (filter (has_value get f v) entries) as [|y q] eqn:F; [now elim Ov|].
          assert (I : In y (filter (has_value get f v) entries)) by (rewrite F; now left). apply filter_In in I. destruct I as [I X].
          assert (PY : In y (filter (present get f) entries)).
          { apply filter_In. split; auto. unfold present, has_value in *. destruct (get y (f_attribute f)); auto. }
          destruct (filter (present get f) entries); [destruct PY|discriminate]. }
        destruct INV as (_ & K & _ & G). assert (Gf := G f Hf).
        destruct (dict_get ckey_eqb (KField f) c) as [[z|l]|] eqn:D; cbn [good] in Gf; [destruct Gf; congruence| |contradiction].
        destruct Gf as (_ & _ & Gp). destruct (per_texts get human fields entries typed clear_ f l Hf CT Gp) as (p & _ & Tp).
        destruct (Q _ _ (item_values get human fields entries f p Hf CT Pf Tp)) as (y & Iy & Jy).
        destruct (PRINT _ _ Iy) as [ll Ell]. remember (f_alias f) as n eqn:En in Iy, Jy, Ell.
        destruct Jy as [_|g Hg C1 _ M1|g m' s' Hg C1 _ M1 O1|g q Hg C1 _ Tq]; [exfalso; now apply (alias_total fields names f)| | |];
          (assert (g = f) by now apply (alias_inj fields names)); subst g; try congruence.
        exists (f_alias f), (PPer q), ll. split; [exact Iy|]. split; [exact Ell|]. cbn [print_cell] in Ell.
        destruct (list_sort (fun t => token (fst t)) false q) as [o|e] eqn:Eo; cbn [bindr] in Ell; [|discriminate]. injection Ell as <-.
        destruct (list_sort_spec _ _ _ _ Eo) as (k' & _ & P' & _). apply in_map_iff.
        exists (s, Z.of_nat (occurs get f v entries)). split; [reflexivity|]. eapply Permutation_in; [exact P'|].
        apply (proj2 Tq). eauto.
  Qed.
End Lines.
