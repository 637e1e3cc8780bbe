From Coq Require Import List NArith ZArith Bool Lia.
From Verif Require Import Py Re ConvertModel ConvertSpec DurationProofs SizeProofs ArgsModel ArgsValueSpec.
Import ListNotations.
Local Open Scope nat_scope.

Definition ds_ (s : str) : Prop := forallb is_d s = true.
Definition chr (c : char) : re := Chr (Cls false false [CChar c]).
Lemma mem_chr x c : mem (Cls false false [CChar x]) c = true <-> c = x.
Proof. rewrite mem_pos. cbn [items_mem existsb item_mem]. rewrite orb_false_r, N.eqb_eq. split; auto. Qed.
Definition star_ (n : nat) : re := Grp n (Cat Eps (Star true dcls)).
Definition plus_ (n : nat) : re := Grp n (Cat Eps (Cat (Chr dcls) (Star true dcls))).
Definition bound_ (n : nat) : re :=
  Grp n (Alt (Cat Eps (Star true dcls)) (Cat (Cat Eps (Re.Opt true (chr 45%N))) (Cat (Chr dcls) (Star true dcls)))).
Lemma Dc_chr n0 x s cs s' cs' : Dc n0 (chr x) s cs s' cs' <-> s = x :: s' /\ cs' = cs.
Proof.
  unfold chr. cbn [Dc]. split.
  - intros (c & -> & H & ->). apply mem_chr in H. subst. auto.
  - intros [-> ->]. exists x. split; [reflexivity|]. split; [now apply mem_chr|reflexivity].
Qed.
Lemma Dc_eps n0 r s cs s' cs' : Dc n0 (Cat Eps r) s cs s' cs' <-> Dc n0 r s cs s' cs'.
Proof.
  cbn [Dc]. split.
  - intros (t & ct & [-> ->] & H). exact H.
  - intros H. exists s, cs. auto.
Qed.
Lemma Dc_grp n0 n r s cs s' cs' : Dc n0 (Grp n r) s cs s' cs' <->
  exists ct a, Dc n0 r s cs s' ct /\ s = a ++ s' /\ cs' = (n, a) :: ct.
Proof.
  cbn [Dc]. split.
  - intros (ct & H & ->). assert (X : exists a, s = a ++ s').
    { clear -H. revert s cs s' ct H. induction r; intros s cs s' ct; cbn [Dc].
      - intros [-> _]. now exists [].
      - intros (c & -> & _). now exists [c].
      - intros (t & c1 & H1 & H2). apply IHr1 in H1 as [a ->]. apply IHr2 in H2 as [b ->]. exists (a ++ b). apply app_assoc.
      - intros [H|H]; eauto.
      - intros (a & -> & _). now exists a.
      - intros [H|[-> _]]; [eauto|now exists []].
      - intros (c1 & H & _). eauto.
      - intros [-> _]. now exists [].
      - intros [-> _]. now exists []. }
    destruct X as [a ->]. exists ct, a. rewrite firstn_sub. auto.
  - intros (ct & a & H & -> & ->). exists ct. rewrite firstn_sub. auto.
Qed.
Lemma Dc_star n0 n s cs s' cs' : Dc n0 (star_ n) s cs s' cs' <->
  exists a, s = a ++ s' /\ ds_ a /\ cs' = (n, a) :: cs.
Proof.
  unfold star_. rewrite Dc_grp. split.
  - intros (ct & a & H & -> & ->). rewrite Dc_eps in H. destruct H as (b & E & H & ->).
    apply app_inv_tail in E. subst b. rewrite mem_dcls_all in H. exists a. auto.
  - intros (a & -> & H & ->). exists cs, a. rewrite Dc_eps. split; [|auto]. exists a. rewrite mem_dcls_all. auto.
Qed.
Lemma Dc_plusd n0 n s cs s' cs' : Dc n0 (plus_ n) s cs s' cs' <->
  exists a, s = a ++ s' /\ digits a /\ cs' = (n, a) :: cs.
Proof.
  unfold plus_. rewrite Dc_grp. split.
  - intros (ct & a & H & -> & ->). rewrite Dc_eps, Dc_plus in H. destruct H as (b & Hn & E & H & ->).
    apply app_inv_tail in E. subst b. rewrite mem_dcls_all in H. exists a. rewrite digits_forallb. auto.
  - intros (a & -> & H & ->). exists cs, a. apply digits_forallb in H as [H1 H2]. rewrite Dc_eps, Dc_plus.
    split; [|auto]. exists a. rewrite mem_dcls_all. auto.
Qed.
Definition pos_text (a : str) : Prop := ds_ a \/ exists b, a = 45%N :: b /\ digits b.
Lemma Dc_bound n0 n s cs s' cs' : Dc n0 (bound_ n) s cs s' cs' <->
  exists a, s = a ++ s' /\ pos_text a /\ cs' = (n, a) :: cs.
Proof.
  unfold bound_. rewrite Dc_grp. split.
  - intros (ct & a & H & -> & ->). exists a. split; [reflexivity|].
    change (Dc n0 (Alt ?x ?y) ?p ?q ?u ?v) with (Dc n0 x p q u v \/ Dc n0 y p q u v) in H.
    destruct H as [H|H].
    + rewrite Dc_eps in H. destruct H as (b & E & H & ->). apply app_inv_tail in E. subst b.
      rewrite mem_dcls_all in H. unfold pos_text. auto.
    + destruct H as (t & ct' & H1 & H2). rewrite Dc_eps in H1. rewrite Dc_plus in H2. destruct H2 as (b & Hn & -> & H & ->).
      rewrite mem_dcls_all in H. destruct H1 as [H1|[E ->]].
      * rewrite Dc_chr in H1. destruct H1 as [E ->]. change (45%N :: b ++ s') with ((45%N :: b) ++ s') in E.
        apply app_inv_tail in E. subst a. unfold pos_text.
        split; [|reflexivity]. right. exists b. rewrite digits_forallb. auto.
      * apply app_inv_tail in E. subst. unfold pos_text. auto.
  - intros (a & -> & H & ->). exists cs, a. split; [|auto].
    change (Dc n0 (Alt ?x ?y) ?p ?q ?u ?v) with (Dc n0 x p q u v \/ Dc n0 y p q u v).
    destruct H as [H|(b & -> & H)].
    + left. rewrite Dc_eps. exists a. rewrite mem_dcls_all. auto.
    + right. apply digits_forallb in H as [Hn H]. exists (b ++ s'), cs. rewrite Dc_eps, Dc_plus. split.
      * left. apply Dc_chr. auto.
      * exists b. rewrite mem_dcls_all. auto.
Qed.
Lemma Dc_cat n0 a b s cs s' cs' : Dc n0 (Cat a b) s cs s' cs' <-> exists t ct, Dc n0 a s cs t ct /\ Dc n0 b t ct s' cs'.
Proof. reflexivity. Qed.
Lemma Dc_alt n0 a b s cs s' cs' : Dc n0 (Alt a b) s cs s' cs' <-> Dc n0 a s cs s' cs' \/ Dc n0 b s cs s' cs'.
Proof. reflexivity. Qed.
(** ^...$ *)
Lemma Dc_whole r s s' cs : Dc (length s) (Cat (Cat (Cat Eps Bol) r) Eol) s [] s' cs <->
  Dc (length s) r s [] s' cs /\ nl s'.
Proof.
  rewrite Dc_cat. split.
  - intros (t & ct & H & -> & -> & He). rewrite Dc_cat in H. destruct H as (t' & ct' & H & H').
    rewrite Dc_eps in H. destruct H as (-> & -> & _). split; [exact H'|now apply at_end_nl].
  - intros [H He]. exists s', cs. split; [|cbn [Dc]; rewrite at_end_nl; auto].
    rewrite Dc_cat. exists s, []. rewrite Dc_eps. split; [|exact H]. cbn [Dc]. auto.
Qed.
Lemma range_re_eq : range_re = Cat (Cat (Cat Eps Bol)
  (Alt (Cat Eps (plus_ 1)) (Cat (Cat (Cat Eps (star_ 2)) (chr 45%N)) (star_ 3)))) Eol.
Proof. reflexivity. Qed.
Lemma slice_re_eq : slice_re = Cat (Cat (Cat Eps Bol)
  (Alt (Cat (Cat (Cat Eps (bound_ 1)) (chr 58%N)) (bound_ 2)) (Cat (Cat (Cat Eps (plus_ 3)) (chr 44%N)) (plus_ 4)))) Eol.
Proof. reflexivity. Qed.

Lemma range_cap s s' cs : Dc (length s) range_re s [] s' cs <-> nl s' /\
  ((exists a, s = a ++ s' /\ digits a /\ cs = [(1, a)]) \/
   (exists a b, s = a ++ 45%N :: b ++ s' /\ ds_ a /\ ds_ b /\ cs = [(3, b); (2, a)])).
Proof.
  rewrite range_re_eq, Dc_whole, Dc_alt, Dc_eps, Dc_plusd. rewrite and_comm. apply and_iff_compat_l.
  apply or_iff_compat_l. rewrite Dc_cat. split.
  - intros (t & ct & H & H3). rewrite Dc_star in H3. destruct H3 as (b & -> & Hb & ->).
    rewrite Dc_cat in H. destruct H as (t & c2 & H & H2). rewrite Dc_chr in H2. destruct H2 as [-> ->].
    rewrite Dc_eps, Dc_star in H. destruct H as (a & -> & Ha & ->). exists a, b. auto.
  - intros (a & b & -> & Ha & Hb & ->). exists (b ++ s'), [(2, a)]. rewrite Dc_star. split; [|eauto].
    rewrite Dc_cat. exists (45%N :: b ++ s'), [(2, a)]. rewrite Dc_chr, Dc_eps, Dc_star. split; [eauto|auto].
Qed.
Lemma or_iff_both A B C D : (A <-> C) -> (B <-> D) -> (A \/ B <-> C \/ D).
Proof. tauto. Qed.
Lemma slice_cap s s' cs : Dc (length s) slice_re s [] s' cs <-> nl s' /\
  ((exists a b, s = a ++ 58%N :: b ++ s' /\ pos_text a /\ pos_text b /\ cs = [(2, b); (1, a)]) \/
   (exists a b, s = a ++ 44%N :: b ++ s' /\ digits a /\ digits b /\ cs = [(4, b); (3, a)])).
Proof.
  rewrite slice_re_eq, Dc_whole, Dc_alt, !Dc_cat. rewrite and_comm. apply and_iff_compat_l. apply or_iff_both.
  - split.
    + intros (t & ct & H & H3). rewrite Dc_bound in H3. destruct H3 as (b & -> & Hb & ->).
      rewrite Dc_cat in H. destruct H as (t & c2 & H & H2). rewrite Dc_chr in H2. destruct H2 as [-> ->].
      rewrite Dc_eps, Dc_bound in H. destruct H as (a & -> & Ha & ->). exists a, b. auto.
    + intros (a & b & -> & Ha & Hb & ->). exists (b ++ s'), [(1, a)]. rewrite Dc_bound. split; [|eauto].
      rewrite Dc_cat. exists (58%N :: b ++ s'), [(1, a)]. rewrite Dc_chr, Dc_eps, Dc_bound. split; [eauto|auto].
  - split.
    + intros (t & ct & H & H3). rewrite Dc_plusd in H3. destruct H3 as (b & -> & Hb & ->).
      rewrite Dc_cat in H. destruct H as (t & c2 & H & H2). rewrite Dc_chr in H2. destruct H2 as [-> ->].
      rewrite Dc_eps, Dc_plusd in H. destruct H as (a & -> & Ha & ->). exists a, b. auto.
    + intros (a & b & -> & Ha & Hb & ->). exists (b ++ s'), [(3, a)]. rewrite Dc_plusd. split; [|eauto].
      rewrite Dc_cat. exists (44%N :: b ++ s'), [(3, a)]. rewrite Dc_chr, Dc_eps, Dc_plusd. split; [eauto|auto].
Qed.

(** *** Values *)
Local Open Scope Z_scope.
Lemma dec_nil : Z.of_N (digits_val []) = 0.
Proof. reflexivity. Qed.
Lemma dec_val a : ds_ a -> Z.of_N (digits_val a) = decimal a.
Proof. intros H. now rewrite decimal_val. Qed.
Lemma dec_nonneg a : ds_ a -> 0 <= decimal a.
Proof. intros H. rewrite <- dec_val by exact H. apply N2Z.is_nonneg. Qed.
Lemma ds_digits a : ds_ a -> a = [] \/ digits a.
Proof. intros H. destruct a; [auto|]. right. apply digits_forallb. split; [easy|exact H]. Qed.
Lemma digits_ds a : digits a -> ds_ a /\ a <> [].
Proof. intros H. apply digits_forallb in H as [H1 H2]. auto. Qed.
Lemma num_or_digits {A} a (d : A) f : digits a -> num_or a d f = f (decimal a).
Proof. intros H. apply digits_ds in H as [H Hn]. destruct a; [easy|]. cbn [num_or]. now rewrite dec_val. Qed.
Definition range_val (x : str + str * str) : Z * option Z :=
  match x with
  | inl a => (decimal a, Some (decimal a))
  | inr (a, b) => match b with [] => (decimal a, None) | _ =>
      if decimal b <? decimal a then (decimal b, Some (decimal a)) else (decimal a, Some (decimal b)) end
  end.
Definition range_shape (s : str) (x : str + str * str) : Prop :=
  match x with
  | inl a => s = a /\ digits a
  | inr (a, b) => s = a ++ 45%N :: b /\ ds_ a /\ ds_ b
  end.
Lemma range_shape_text s r : RangeText s r <-> exists x, range_shape s x /\ r = range_val x.
Proof.
  split.
  - intros H. destruct H as [ds H|ds H|a b Ha Hb|a Ha|].
    + exists (inl ds). cbn. auto.
    + exists (inr ([], ds)). apply digits_ds in H as [H Hn]. split; [split; [reflexivity|now split]|].
      cbn [range_val]. destruct ds as [|c ds]; [easy|]. replace (decimal (c :: ds) <? decimal []) with false; [reflexivity|].
      symmetry. apply Z.ltb_ge. apply (dec_nonneg (c :: ds) H).
    + exists (inr (a, b)). apply digits_ds in Ha as [Ha _]. apply digits_ds in Hb as [Hb Hn].
      split; [split; [reflexivity|now split]|]. cbn [range_val]. destruct b as [|c b]; [easy|].
      destruct (Z.ltb_spec (decimal (c :: b)) (decimal a)); (f_equal; [lia|f_equal; lia]).
    + exists (inr (a, [])). apply digits_ds in Ha as [Ha _]. split; [split; [reflexivity|now split]|]. reflexivity.
    + exists (inr ([], [])). split; [now split|reflexivity].
  - intros ([a|[a b]] & H & ->).
    + destruct H as [-> H]. now constructor.
    + destruct H as (-> & Ha & Hb). cbn [range_val]. destruct (ds_digits a Ha) as [->|Da], (ds_digits b Hb) as [->|Db].
      * exact range_any.
      * destruct b as [|c b]; [now destruct Db|]. replace (decimal (c :: b) <? decimal []) with false; [exact (range_up_to (c :: b) Db)|].
        symmetry. apply Z.ltb_ge. apply (dec_nonneg (c :: b) Hb).
      * exact (range_from a Da).
      * destruct b as [|c b]; [now destruct Db|]. assert (X := range_between a (c :: b) Da Db).
        destruct (Z.ltb_spec (decimal (c :: b)) (decimal a)).
        -- rewrite Z.min_r, Z.max_l in X by lia. exact X.
        -- rewrite Z.min_l, Z.max_r in X by lia. exact X.
Qed.
Lemma ds_no c a : ds_ a -> is_d c = false -> ~ In c a.
Proof. intros H Hc Hin. unfold ds_ in H. rewrite forallb_forall in H. apply H in Hin. congruence. Qed.
Lemma range_shape_unique s x y : range_shape s x -> range_shape s y -> x = y.
Proof.
  destruct x as [a|[a b]], y as [a'|[a' b']]; cbn [range_shape].
  - intros [-> _] [-> _]. reflexivity.
  - intros [-> H] (E & _). exfalso. apply digits_ds in H as [H _]. apply (ds_no 45%N a H eq_refl).
    rewrite E. apply in_or_app. right. now left.
  - intros (E & _) [-> H]. exfalso. apply digits_ds in H as [H _]. apply (ds_no 45%N a' H eq_refl).
    rewrite E. apply in_or_app. right. now left.
  - intros (-> & Ha & Hb) (E & Ha' & Hb'). apply (span_unique is_d) in E as [-> E]; try assumption; try reflexivity.
    now injection E as ->.
Qed.
Lemma range_shape_no c s x : range_shape s x -> is_d c = false -> c <> 45%N -> ~ In c s.
Proof.
  destruct x as [a|[a b]]; cbn [range_shape].
  - intros [-> H] Hc _. apply digits_ds in H as [H _]. now apply ds_no.
  - intros (-> & Ha & Hb) Hc Hn Hin. apply in_app_or in Hin as [Hin|[Hin|Hin]]; [|congruence|];
      (eapply ds_no; [| |exact Hin]; eassumption).
Qed.
Lemma app_last_nl {b s' : str} s : s = b ++ s' -> nl s' -> ~ In NL s -> s' = [].
Proof. intros -> [->| ->] H; [reflexivity|]. exfalso. apply H, in_or_app. right. now left. Qed.
Lemma type_range_shape s : ~ In NL s -> match type_range s with
  | Ok r => exists x, range_shape s x /\ r = range_val x
  | Err e => e = ValueError /\ forall x, ~ range_shape s x
  end.
Proof.
  intros Hnl. unfold type_range. destruct (re_match range_re s) as [[s' cs]|] eqn:E.
  - apply re_match_some in E. apply range_cap in E as [He [(a & -> & Ha & ->)|(a & b & -> & Ha & Hb & ->)]].
    + assert (s' = []) by (eapply app_last_nl; eauto). subst s'. rewrite app_nil_r in *.
      cbn [group Nat.eqb]. exists (inl a). split; [cbn; auto|]. cbn [range_val].
      now rewrite dec_val by now apply digits_ds.
    + assert (s' = []) by (eapply (app_last_nl (b := a ++ 45%N :: b)); [|exact He|exact Hnl]; now rewrite <- app_assoc).
      subst s'. rewrite app_nil_r in *. cbn [group Nat.eqb]. exists (inr (a, b)). split; [cbn; auto|].
      cbn [range_val]. assert (N0 : num_or a 0 (fun z => z) = decimal a).
      { destruct a; [reflexivity|]. cbn [num_or]. now apply dec_val. }
      rewrite N0. destruct b as [|c b]; [reflexivity|]. cbn [num_or]. rewrite dec_val by exact Hb. reflexivity.
  - split; [reflexivity|]. rewrite re_match_none in E. intros x Hx.
    destruct x as [a|[a b]].
    + destruct Hx as [-> Hx]. apply (E [] [(1%nat, a)]). apply range_cap. split; [now left|].
      left. exists a. rewrite app_nil_r. auto.
    + destruct Hx as (-> & Ha & Hb). apply (E [] [(3%nat, b); (2%nat, a)]). apply range_cap. split; [now left|].
      right. exists a, b. rewrite app_nil_r. auto.
Qed.
Lemma type_range_text s r : ~ In NL s -> type_range s = Ok r <-> RangeText s r.
Proof.
  intros H. rewrite range_shape_text. assert (T := type_range_shape s H). destruct (type_range s) as [r'|e].
  - split.
    + intros [= <-]. exact T.
    + destruct T as (x & Hx & ->). intros (y & Hy & ->). now rewrite (range_shape_unique s x y).
  - split; [discriminate|]. intros (x & Hx & _). now apply T in Hx.
Qed.

(** Stripping. *)
Lemma lstrip_split p s : exists l t, s = l ++ t /\ forallb p l = true /\ lstrip_p p s = t /\
  match t with [] => True | c :: _ => p c = false end.
Proof.
  induction s as [|c s IH]; cbn [lstrip_p].
  - exists [], []. auto.
  - destruct (p c) eqn:E.
    + destruct IH as (l & t & -> & H1 & H2 & H3). exists (c :: l), t. cbn. rewrite E. auto.
    + exists [], (c :: s). auto.
Qed.
Lemma lstrip_app p l t : forallb p l = true -> match t with [] => True | c :: _ => p c = false end -> lstrip_p p (l ++ t) = t.
Proof.
  intros Hl Ht. induction l as [|c l IH]; cbn [app].
  - now apply lstrip_p_id.
  - cbn in Hl |- *. apply andb_true_iff in Hl as [-> Hl]. auto.
Qed.
Definition edges (p : char -> bool) (t : str) : Prop :=
  match t with [] => True | c :: _ => p c = false end /\ match rev t with [] => True | c :: _ => p c = false end.
Lemma forallb_rev {A} (p : A -> bool) l : forallb p (rev l) = forallb p l.
Proof.
  induction l as [|x l IH]; [reflexivity|]. cbn [rev forallb]. rewrite forallb_app, IH. cbn.
  rewrite andb_true_r. apply andb_comm.
Qed.
Lemma strip_split p s : exists l r, s = l ++ strip_p p s ++ r /\ forallb p l = true /\ forallb p r = true /\ edges p (strip_p p s).
Proof.
  unfold strip_p, rstrip_p. destruct (lstrip_split p s) as (l & t & -> & Hl & -> & Ht).
  destruct (lstrip_split p (rev t)) as (r & u & E & Hr & -> & Hu).
  exists l, (rev r). assert (Et : t = rev u ++ rev r) by (rewrite <- rev_app_distr, <- E; symmetry; apply rev_involutive).
  rewrite <- Et. split; [reflexivity|]. split; [exact Hl|]. split; [now rewrite forallb_rev|]. split.
  - rewrite Et in Ht. destruct (rev u) as [|c v]; [exact I|exact Ht].
  - now rewrite rev_involutive.
Qed.
Lemma strip_app p l t r : forallb p l = true -> forallb p r = true -> t <> [] -> edges p t -> strip_p p (l ++ t ++ r) = t.
Proof.
  intros Hl Hr Hn [H1 H2]. unfold strip_p, rstrip_p. rewrite lstrip_app; [|exact Hl|destruct t; [easy|exact H1]].
  rewrite rev_app_distr, lstrip_app; [apply rev_involutive|now rewrite forallb_rev|exact H2].
Qed.
Lemma blank_iff s : blank s <-> forallb is_space s = true.
Proof. unfold blank. now rewrite forallb_forall. Qed.
Lemma range_chars s r : RangeText s r -> s <> [] /\ forall c, In c s -> is_d c = true \/ c = 45%N.
Proof.
  intros H. split.
  - destruct H as [ds [H _]|ds H|a b Ha Hb|a Ha|]; try easy; destruct a; easy.
  - apply range_shape_text in H as (x & H & _). intros c Hc. destruct (is_d c) eqn:E; [auto|].
    destruct (N.eq_dec c 45%N); [auto|]. exfalso. exact (range_shape_no c s x H E n Hc).
Qed.
Lemma range_edges s r : RangeText s r -> edges is_space s.
Proof.
  intros H. apply range_chars in H as [_ H].
  assert (K : forall c, In c s -> is_space c = false).
  { intros c Hc. apply H in Hc as [Hc| ->]; [|reflexivity]. revert Hc. unfold is_d, is_space, between. lia. }
  split.
  - destruct s; [exact I|apply K; now left].
  - destruct (rev s) eqn:E; [exact I|]. apply K. apply in_rev. rewrite E. now left.
Qed.
Lemma type_range_blank s r : type_range (strip s) = Ok r <->
  exists l t x, s = l ++ t ++ x /\ blank l /\ blank x /\ RangeText t r.
Proof.
  destruct (strip_split is_space s) as (l & x & E & Hl & Hx & He). fold (strip s) in *.
  assert (R : forall s, RangeText s r -> ~ In NL s).
  { intros s0 H Hin. apply range_chars in H as [_ H]. apply H in Hin as [Hin|Hin]; discriminate. }
  split.
  - intros H. exists l, (strip s), x. rewrite !blank_iff. split; [exact E|]. split; [exact Hl|]. split; [exact Hx|].
    (* a newline in the middle is not matched *)
    assert (Hs : type_range (strip s) = Ok r) by exact H. unfold type_range in H.
    destruct (re_match range_re (strip s)) as [[s' cs]|] eqn:M; [|discriminate].
    apply re_match_some in M. apply range_cap in M as [[-> | ->] M].
    + apply type_range_text; [|exact Hs]. intros Hin.
      destruct M as [(a & Ea & Ha & _)|(a & b & Ea & Ha & Hb & _)]; rewrite app_nil_r in Ea; rewrite Ea in Hin.
      * apply digits_ds in Ha as [Ha _]. now apply (ds_no NL a Ha).
      * apply in_app_or in Hin as [Hin|[Hin|Hin]]; [now apply (ds_no NL a Ha)|discriminate|now apply (ds_no NL b Hb)].
    + exfalso. destruct He as [_ He].
      destruct M as [(a & Ea & _)|(a & b & Ea & _)]; rewrite Ea in He.
      * rewrite rev_app_distr in He. discriminate.
      * rewrite rev_app_distr in He. cbn [rev] in He. rewrite rev_app_distr in He. discriminate.
  - intros (l' & t & x' & -> & Hl' & Hx' & Ht). rewrite blank_iff in *.
    unfold strip. rewrite strip_app; [|assumption|assumption|now apply range_chars in Ht|now apply range_edges in Ht].
    apply type_range_text; [now apply R|exact Ht].
Qed.
Lemma ranges_split s xs : RangesText s xs <->
  Forall2 (fun p r => exists l t x, p = l ++ t ++ x /\ blank l /\ blank x /\ RangeText t r) (split_on 44%N s) xs.
Proof.
  assert (NC : forall l t x r, blank l -> blank x -> RangeText t r -> ~ In 44%N (l ++ t ++ x)).
  { intros l t x r Hl Hx Ht Hin. apply in_app_or in Hin as [Hin|Hin]; [now apply Hl in Hin|].
    apply in_app_or in Hin as [Hin|Hin]; [|now apply Hx in Hin].
    apply range_chars in Ht as [_ Ht]. apply Ht in Hin as [Hin|Hin]; discriminate. }
  split.
  - induction 1 as [l t x r Hl Ht Hx|l t x r s xs Hl Ht Hx H IH].
    + rewrite split_on_nosep by eauto. constructor; [|constructor]. exists l, t, x. auto.
    + replace (l ++ t ++ x ++ 44%N :: s) with ((l ++ t ++ x) ++ 44%N :: s) by now rewrite <- !app_assoc.
      rewrite split_on_app by eauto. constructor; [|exact IH]. exists l, t, x. auto.
  - intros H. rewrite <- (join_split 44%N s). assert (Hn := split_on_nonnil 44%N s).
    induction H as [|p r ps xs (l & t & x & -> & Hl & Hx & Ht) H IH]; [easy|].
    destruct ps as [|p' ps].
    + inversion H; subst. cbn [join_with]. now constructor.
    + change (join_with [44%N] ((l ++ t ++ x) :: p' :: ps)) with ((l ++ t ++ x) ++ 44%N :: join_with [44%N] (p' :: ps)).
      rewrite <- !app_assoc. apply ranges_more; try assumption. apply IH. discriminate.
Qed.
Lemma mapr_forall2 {A B} (f : A -> res B) l k : mapr f l = Ok k <-> Forall2 (fun x y => f x = Ok y) l k.
Proof.
  revert k. induction l as [|x l IH]; intros k; cbn [mapr].
  - split; [intros [= <-]; constructor|intros H; now inversion H].
  - destruct (f x) as [y|e] eqn:E; cbn [bindr].
    + destruct (mapr f l) as [k'|e']; cbn [bindr].
      * split.
        -- intros [= <-]. constructor; [exact E|]. now apply IH.
        -- intros H. inversion H as [|? ? ? ? H1 H2]; subst. apply IH in H2. congruence.
      * split; [discriminate|]. intros H. inversion H as [|? ? ? ? H1 H2]; subst. apply IH in H2. discriminate.
    + split; [discriminate|]. intros H. inversion H; subst. congruence.
Qed.
Lemma Forall2_map_l {A B C} (f : A -> B) (P : B -> C -> Prop) l k : Forall2 P (map f l) k <-> Forall2 (fun x y => P (f x) y) l k.
Proof.
  revert k. induction l as [|x l IH]; intros k; cbn [map].
  - split; intros H; inversion H; constructor.
  - split; intros H; inversion H; subst; constructor; auto; now apply IH.
Qed.
Lemma Forall2_iff {A B} (P Q : A -> B -> Prop) l k : (forall x y, P x y <-> Q x y) -> Forall2 P l k <-> Forall2 Q l k.
Proof. intros H. split; intros F; induction F; constructor; auto; now apply H. Qed.
Lemma type_ranges_text s xs : type_ranges s = Ok xs <-> RangesText s xs.
Proof.
  unfold type_ranges, type_list. rewrite mapr_forall2, Forall2_map_l, ranges_split.
  apply Forall2_iff. intros x y. apply type_range_blank.
Qed.

(** *** Slices *)
Lemma int_of_pos a x : Position a x -> a <> [] /\ int_of a = x.
Proof.
  intros [ds H|ds H].
  - apply digits_ds in H as [H Hn]. split; [exact Hn|]. destruct ds as [|c t]; [easy|]. cbn [int_of].
    destruct (N.eqb_spec c 45%N) as [->|]; [discriminate|]. now apply dec_val.
  - apply digits_ds in H as [H Hn]. split; [easy|]. cbn [int_of]. change (45 =? 45)%N with true. cbv iota. now rewrite dec_val.
Qed.
Lemma pos_text_pos a : pos_text a <-> a = [] \/ exists x, Position a x.
Proof.
  split.
  - intros [H|(b & -> & H)].
    + destruct (ds_digits a H) as [->|D]; [auto|]. right. eexists. now constructor.
    + right. eexists. now constructor.
  - intros [->|(x & [ds H|ds H])]; [now left| |].
    + left. now apply digits_ds.
    + right. eauto.
Qed.
Lemma pos_text_no c a : pos_text a -> is_d c = false -> c <> 45%N -> ~ In c a.
Proof.
  intros [H|(b & -> & H)] Hc Hn.
  - now apply ds_no.
  - apply digits_ds in H as [H _]. intros [E|Hin]; [congruence|]. now apply (ds_no c b H).
Qed.
Definition slice_val (a b : str) : Z * option Z :=
  (match a with [] => 0 | _ => int_of a end, match b with [] => None | _ => Some (int_of b) end).
Definition slice_shape (s : str) (r : Z * option Z) : Prop :=
  (exists a b, s = a ++ 58%N :: b /\ pos_text a /\ pos_text b /\ r = slice_val a b) \/
  (exists a b, s = a ++ 44%N :: b /\ digits a /\ digits b /\ r = (decimal a * decimal b, Some (decimal a * (decimal b + 1)))).
Lemma slice_shape_text s r : SliceText s r <-> slice_shape s r.
Proof.
  split.
  - intros [a b x y Ha Hb|a x Ha|b y Hb| |n p Hn Hp].
    + left. exists a, b. split; [reflexivity|]. rewrite !pos_text_pos. split; [eauto|]. split; [eauto|].
      apply int_of_pos in Ha as [Na <-]. apply int_of_pos in Hb as [Nb <-]. unfold slice_val. destruct a; [easy|]. now destruct b.
    + left. exists a, []. split; [reflexivity|]. rewrite !pos_text_pos. split; [eauto|]. split; [eauto|].
      apply int_of_pos in Ha as [Na <-]. unfold slice_val. now destruct a.
    + left. exists [], b. split; [reflexivity|]. rewrite !pos_text_pos. split; [eauto|]. split; [eauto|].
      apply int_of_pos in Hb as [Nb <-]. unfold slice_val. now destruct b.
    + left. exists [], []. split; [reflexivity|]. rewrite !pos_text_pos. auto.
    + right. exists n, p. auto.
  - intros [(a & b & -> & Ha & Hb & ->)|(a & b & -> & Ha & Hb & ->)]; [|now apply slice_page].
    rewrite pos_text_pos in Ha, Hb. destruct Ha as [->|[x Ha]], Hb as [->|[y Hb]].
    + exact slice_all.
    + cbn [app]. assert (X := int_of_pos b y Hb). destruct X as [N <-]. unfold slice_val. destruct b; [easy|]. now apply slice_stop.
    + assert (X := int_of_pos a x Ha). destruct X as [N <-]. unfold slice_val. destruct a as [|c a]; [easy|]. now apply slice_start.
    + assert (X := int_of_pos a x Ha). destruct X as [N <-]. assert (X := int_of_pos b y Hb). destruct X as [N' <-].
      unfold slice_val. destruct a as [|c a]; [easy|]. destruct b; [easy|]. now apply slice_both.
Qed.
Lemma split_char_unique (c : char) (a b a' b' : str) : a ++ c :: b = a' ++ c :: b' -> ~ In c a -> ~ In c a' -> a = a' /\ b = b'.
Proof.
  revert a'. induction a as [|x a IH]; intros [|y a'] E Ha Ha'; cbn in E.
  - injection E as ->. auto.
  - injection E as -> _. exfalso. apply Ha'. now left.
  - injection E as -> _. exfalso. apply Ha. now left.
  - injection E as -> E. apply IH in E as [-> ->]; [auto| |]; intros H; [apply Ha|apply Ha']; now right.
Qed.
Lemma slice_shape_unique s r r' : slice_shape s r -> slice_shape s r' -> r = r'.
Proof.
  assert (D : forall c a, digits a -> is_d c = false -> ~ In c a) by (intros c a H; apply digits_ds in H as [H _]; now apply ds_no).
  assert (X : forall a b a' b', pos_text a -> pos_text b -> digits a' -> digits b' -> a ++ 58%N :: b = a' ++ 44%N :: b' -> False).
  { intros a b a' b' Ha Hb Ha' Hb' E. assert (I : In 58%N (a' ++ 44%N :: b')) by (rewrite <- E; apply in_or_app; right; now left).
    apply in_app_or in I as [I|[I|I]]; [now apply (D 58%N a')|discriminate|now apply (D 58%N b')]. }
  intros [(a & b & -> & Ha & Hb & ->)|(a & b & -> & Ha & Hb & ->)] [(a' & b' & E & Ha' & Hb' & ->)|(a' & b' & E & Ha' & Hb' & ->)].
  - apply split_char_unique in E as [-> ->]; [reflexivity| |]; now apply pos_text_no.
  - exfalso. eauto.
  - exfalso. symmetry in E. eauto.
  - apply split_char_unique in E as [-> ->]; [reflexivity| |]; now apply D.
Qed.
Lemma slice_shape_nl s r : slice_shape s r -> ~ In NL s.
Proof.
  intros [(a & b & -> & Ha & Hb & _)|(a & b & -> & Ha & Hb & _)] Hin; apply in_app_or in Hin as [Hin|[Hin|Hin]]; try discriminate.
  - now apply (pos_text_no NL a).
  - now apply (pos_text_no NL b).
  - apply digits_ds in Ha as [Ha _]. now apply (ds_no NL a).
  - apply digits_ds in Hb as [Hb _]. now apply (ds_no NL b).
Qed.
Lemma type_slice_shape s : match type_slice s with
  | Ok r => exists t e, s = t ++ e /\ nl e /\ slice_shape t r
  | Err e => e = ArgumentErr /\ forall t e r, s = t ++ e -> nl e -> ~ slice_shape t r
  end.
Proof.
  unfold type_slice. destruct (re_match slice_re s) as [[s' cs]|] eqn:E.
  - apply re_match_some in E. apply slice_cap in E as [He [(a & b & -> & Ha & Hb & ->)|(a & b & -> & Ha & Hb & ->)]];
      cbn [group Nat.eqb].
    + exists (a ++ 58%N :: b), s'. split; [now rewrite <- app_assoc|]. split; [exact He|].
      left. exists a, b. auto.
    + exists (a ++ 44%N :: b), s'. split; [now rewrite <- app_assoc|]. split; [exact He|].
      right. exists a, b. rewrite !dec_val by now apply digits_ds. auto.
  - split; [reflexivity|]. rewrite re_match_none in E. intros t e r -> He [(a & b & -> & Ha & Hb & _)|(a & b & -> & Ha & Hb & _)].
    + apply (E e [(2%nat, b); (1%nat, a)]). apply slice_cap. split; [exact He|]. left. exists a, b. now rewrite <- app_assoc.
    + apply (E e [(4%nat, b); (3%nat, a)]). apply slice_cap. split; [exact He|]. right. exists a, b. now rewrite <- app_assoc.
Qed.
Lemma type_slice_text s r : type_slice s = Ok r <-> exists t e, s = t ++ e /\ (e = [] \/ e = [NL]) /\ SliceText t r.
Proof.
  assert (T := type_slice_shape s). destruct (type_slice s) as [r'|e'].
  - split.
    + intros [= <-]. destruct T as (t & e & H1 & H2 & H3). exists t, e. rewrite slice_shape_text. auto.
    + intros (t & e & -> & H2 & H3). rewrite slice_shape_text in H3. destruct T as (t' & e' & E & He' & H').
      apply nl_unique in E as [-> _]; try assumption; try (eapply slice_shape_nl; eassumption).
      f_equal. eapply slice_shape_unique; eauto.
  - split; [discriminate|]. intros (t & e & -> & H2 & H3). rewrite slice_shape_text in H3. exfalso.
    destruct T as [_ T]. exact (T t e r eq_refl H2 H3).
Qed.
Lemma type_slice_err s e : type_slice s = Err e -> e = ArgumentErr.
Proof. intros H. assert (T := type_slice_shape s). rewrite H in T. tauto. Qed.

(** *** Jobs *)
Lemma type_jobs_value cpu z : 1 <= cpu ->
  type_jobs cpu (str_of_Z z) = if z <? 0 then Err ValueError else Ok (if z =? 0 then cpu else Z.min z cpu).
Proof.
  intros Hc. unfold type_jobs. rewrite py_int_str_of_Z. destruct (Z.ltb_spec z 0); [reflexivity|].
  cbv zeta. f_equal. destruct (Z.eqb_spec z 0); lia.
Qed.
Lemma type_jobs_bounds cpu s n : 1 <= cpu -> type_jobs cpu s = Ok n ->
  1 <= n <= cpu /\ exists z, py_int s = Some z /\ 0 <= z.
Proof.
  intros Hc. unfold type_jobs. destruct (py_int s) as [z|]; [|discriminate].
  destruct (Z.ltb_spec z 0); [discriminate|]. cbv zeta. intros [= <-]. destruct (Z.eqb_spec z 0); split; try lia; eauto.
Qed.
