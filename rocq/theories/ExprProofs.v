From Coq Require Import List NArith ZArith Bool Lia ZifyBool.
From Verif Require Import Py Re ExprModel ExprSpec.
Import ListNotations.
Local Open Scope nat_scope.

Definition wcls := Cls false false [CWord false].
Definition scls := Cls false false [CSpace false].
Definition ccls (c : N) := Cls false false [CChar c].
Lemma mem_wcls c : mem wcls c = is_w c.
Proof. unfold wcls. rewrite mem_pos. cbn. now rewrite orb_false_r; destruct (is_w c). Qed.
Lemma mem_scls c : mem scls c = is_space c.
Proof. unfold scls. rewrite mem_pos. cbn. now rewrite orb_false_r; destruct (is_space c). Qed.
Lemma mem_ccls a c : mem (ccls a) c = N.eqb a c.
Proof. unfold ccls. rewrite mem_pos. cbn. now rewrite orb_false_r. Qed.
Lemma mem_dot c : mem dot_cls c = negb (N.eqb NL c).
Proof. unfold dot_cls. rewrite mem_neg. cbn [items_mem existsb item_mem]. now rewrite orb_false_r. Qed.
Lemma all_wcls s : forallb (mem wcls) s = forallb is_w s.
Proof. induction s; cbn [forallb]; [reflexivity|]. now rewrite mem_wcls, IHs. Qed.
Lemma all_scls s : forallb (mem scls) s = forallb is_space s.
Proof. induction s; cbn [forallb]; [reflexivity|]. now rewrite mem_scls, IHs. Qed.

(** The pieces of the expression. *)
Definition wplus g := Cat (Chr wcls) (Star g wcls).
Definition name_re := Cat (Cat Eps (Opt true (Cat (Cat Eps (wplus true)) (Chr (ccls 46%N))))) (wplus false).
Definition brace_re :=
  Cat (Cat (Cat (Cat Eps (Chr (ccls 123%N))) (Opt true (Cat (Cat Eps (wplus true)) (Chr (ccls 46%N))))) (wplus false))
    (Chr (ccls 125%N)).
Definition empty_re := Cat (Cat Eps (Chr (ccls 123%N))) (Chr (ccls 125%N)).
Definition op1 a := Cat Eps (Chr (ccls a)).
Definition op2 a b := Cat (Cat Eps (Chr (ccls a))) (Chr (ccls b)).
Definition ops_re :=
  Alt (Alt (Alt (Alt (Alt (Alt (Alt (Alt (Alt (Alt (Alt (op1 61) (op1 58)) (op1 126)) (op1 37))
    (op2 62 61)) (op1 62)) (op2 60 61)) (op1 60)) (op2 43 61)) (op1 43)) (op2 45 61)) (op1 45).
Definition value_re := Cat Eps (Cat (Chr dot_cls) (Star true dot_cls)).
Definition whole_re :=
  Cat (Cat (Cat (Cat (Cat (Cat (Cat (Cat (Cat (Cat Eps Bol) (Star true scls)) (Grp 1 name_re)) (Star true scls))
    (Grp 2 ops_re)) (Opt true (Grp 3 (Alt brace_re empty_re)))) (Star true scls)) (Grp 4 value_re)) (Star true scls)) Eol.
Lemma expression_re_eq : expression_re = whole_re.
Proof. reflexivity. Qed.

Lemma word_iff s : word s <-> s <> [] /\ forallb is_w s = true.
Proof. unfold word. now rewrite forallb_forall. Qed.
Lemma blanks_iff s : blanks s <-> forallb is_space s = true.
Proof. unfold blanks. now rewrite forallb_forall. Qed.
Lemma space_not_w c : is_space c = true -> is_w c = false.
Proof.
  unfold is_space, is_w, is_d, is_lower_az, is_upper_AZ, between. lia.
Qed.

(** ** Soundness: what a successful match looks like *)
Lemma wplus_D n0 g s cs s' cs' : Dc n0 (wplus g) s cs s' cs' <->
  exists a, word a /\ s = a ++ s' /\ cs' = cs.
Proof.
  unfold wplus. rewrite Dc_plus. split.
  - intros (a & H1 & H2 & H3 & H4). rewrite all_wcls in H3. exists a. rewrite word_iff. auto.
  - intros (a & H & H2 & H3). rewrite word_iff in H. destruct H. exists a. rewrite all_wcls. auto.
Qed.
Lemma opt_D n0 s cs s' cs' : Dc n0 (Opt true (Cat (Cat Eps (wplus true)) (Chr (ccls 46%N)))) s cs s' cs' <->
  cs' = cs /\ exists p, s = p ++ s' /\ (p = [] \/ exists w, word w /\ p = w ++ $".").
Proof.
  cbn [Dc]. setoid_rewrite wplus_D. split.
  - intros [(t & ct & (t1 & ct1 & [-> ->] & a & Ha & -> & ->) & c & -> & Hc & ->)|[-> ->]].
    + split; [reflexivity|]. rewrite mem_ccls in Hc. apply N.eqb_eq in Hc as <-.
      exists (a ++ $"."). rewrite <- app_assoc. split; [reflexivity|]. right. eauto.
    + split; [reflexivity|]. exists []. auto.
  - intros (-> & p & -> & [-> |(w & Hw & ->)]).
    + right. auto.
    + left. exists ($"." ++ s'), cs. split.
      * exists ((w ++ $".") ++ s'), cs. split; [auto|]. exists w. rewrite <- app_assoc. auto.
      * exists 46%N. auto.
Qed.
Lemma name_D n0 s cs s' cs' : Dc n0 name_re s cs s' cs' <-> exists a, name a /\ s = a ++ s' /\ cs' = cs.
Proof.
  unfold name_re. cbn [Dc]. fold (wplus true). change (Cat (Chr wcls) (Star false wcls)) with (wplus false).
  split.
  - intros (t & ct & (t1 & ct1 & [-> ->] & H1) & H2).
    apply opt_D in H1 as (-> & p & -> & H1). apply wplus_D in H2 as (a & Ha & -> & ->).
    exists (p ++ a). rewrite <- app_assoc. split; [|auto].
    destruct H1 as [-> |(w & Hw & ->)]; [now left|]. right. exists w, a. rewrite <- app_assoc. auto.
  - intros (a & [Ha|(p & n & Hp & Hn & ->)] & -> & ->).
    + exists (a ++ s'), cs. split.
      * exists (a ++ s'), cs. split; [auto|]. apply opt_D. split; [auto|]. exists []. auto.
      * apply wplus_D. eauto.
    + exists (n ++ s'), cs. split.
      * exists ((p ++ $"." ++ n) ++ s'), cs. split; [auto|]. apply opt_D. split; [auto|].
        exists (p ++ $"."). rewrite <- !app_assoc. split; [reflexivity|]. right. eauto.
      * apply wplus_D. eauto.
Qed.
Lemma brace_D n0 s cs s' cs' : Dc n0 brace_re s cs s' cs' <->
  exists a, name a /\ s = $"{" ++ a ++ $"}" ++ s' /\ cs' = cs.
Proof.
  unfold brace_re. split.
  - intros (t & ct & (t1 & ct1 & (t2 & ct2 & (t3 & ct3 & [-> ->] & c & -> & Hc & ->) & H1) & H2) & d & -> & Hd & ->).
    rewrite mem_ccls in Hc, Hd. apply N.eqb_eq in Hc as <-, Hd as <-.
    assert (H : Dc n0 name_re t2 cs (125%N :: s') ct).
    { exists t1, ct1. split; [|exact H2]. exists t2, cs. split; [now split|exact H1]. }
    apply name_D in H as (a & Ha & -> & ->). exists a. auto.
  - intros (a & Ha & -> & ->).
    assert (H : Dc n0 name_re (a ++ $"}" ++ s') cs ($"}" ++ s') cs) by (apply name_D; eauto).
    destruct H as (t1 & ct1 & (t2 & ct2 & [-> ->] & H1) & H2).
    exists ($"}" ++ s'), cs. split; [|exists 125%N; auto].
    exists t1, ct1. split; [|exact H2]. exists (a ++ $"}" ++ s'), cs. split; [|exact H1].
    exists ($"{" ++ a ++ $"}" ++ s'), cs. split; [now split|]. exists 123%N. auto.
Qed.
Lemma empty_D n0 s cs s' cs' : Dc n0 empty_re s cs s' cs' <-> s = $"{}" ++ s' /\ cs' = cs.
Proof.
  unfold empty_re. split.
  - intros (t & ct & (t1 & ct1 & [-> ->] & c & -> & Hc & ->) & d & -> & Hd & ->).
    rewrite mem_ccls in Hc, Hd. apply N.eqb_eq in Hc as <-, Hd as <-. auto.
  - intros (-> & ->). exists ($"}" ++ s'), cs. split; [|exists 125%N; auto].
    exists ($"{}" ++ s'), cs. split; [now split|]. exists 123%N. auto.
Qed.
Definition op_list : list str :=
  [$"="; $":"; $"~"; $"%"; $">="; $">"; $"<="; $"<"; $"+="; $"+"; $"-="; $"-"].
Lemma ops_D n0 s cs s' cs' : Dc n0 ops_re s cs s' cs' <->
  exists o, In o op_list /\ s = o ++ s' /\ cs' = cs.
Proof.
  rewrite (Dc_words n0 ops_re (map (map ccls) op_list)) by reflexivity.
  assert (S : forall o a, spells (map ccls o) a <-> a = o).
  { induction o as [|c o IH]; intros a; cbn [map]; [apply spells_nil|]. rewrite spells_iff. split.
    - intros (c' & t & -> & H1 & H2). rewrite mem_ccls in H1. apply N.eqb_eq in H1 as ->.
      apply IH in H2 as ->. reflexivity.
    - intros ->. exists c, o. rewrite mem_ccls, N.eqb_refl. split; [auto|]. split; [auto|]. now apply IH. }
  split.
  - intros (-> & w & a & Hw & -> & Hs). apply in_map_iff in Hw as (o & <- & Ho).
    apply S in Hs as ->. eauto.
  - intros (o & Ho & -> & ->). split; [reflexivity|]. exists (map ccls o), o.
    split; [now apply in_map|]. split; [reflexivity|]. now apply S.
Qed.
Lemma operator_iff o : (exists n, operator o n) <-> In o op_list.
Proof.
  split.
  - intros [n []]; cbn; tauto.
  - cbn. intuition; subst o; eexists; constructor.
Qed.
Lemma operator_norm o n : operator o n -> replace_c 60%N 45%N (replace_c 62%N 43%N o) = n.
Proof. now intros []. Qed.
Lemma value_D n0 s cs s' cs' : Dc n0 value_re s cs s' cs' <->
  exists v, value v /\ s = v ++ s' /\ cs' = cs.
Proof.
  unfold value_re. cbn [Dc]. fold Dc. split.
  - intros (t & ct & [-> ->] & H). apply (Dc_plus n0 true dot_cls) in H as (a & H1 & H2 & H3 & H4).
    exists a. split; [|auto]. split; [exact H1|]. intros Hin. rewrite forallb_forall in H3.
    apply H3 in Hin. rewrite mem_dot, N.eqb_refl in Hin. discriminate.
  - intros (v & [Hn Hl] & -> & ->). exists (v ++ s'), cs. split; [auto|].
    apply (Dc_plus n0 true dot_cls). exists v. split; [exact Hn|]. split; [auto|]. split; [|auto].
    apply forallb_forall. intros c Hc. rewrite mem_dot. destruct (N.eqb_spec NL c); [subst; tauto|auto].
Qed.

Lemma blank_D n0 s cs s' cs' : Dc n0 (Star true scls) s cs s' cs' <->
  exists b, blanks b /\ s = b ++ s' /\ cs' = cs.
Proof.
  cbn [Dc]. split; intros (a & H1 & H2 & H3).
  - exists a. rewrite all_scls in H2. rewrite blanks_iff. auto.
  - exists a. rewrite all_scls. rewrite blanks_iff in H1. auto.
Qed.

Lemma name_head a : name a -> exists c t, a = c :: t /\ is_w c = true /\ exists d, last a 0%N = d /\ is_w d = true.
Proof.
  assert (L : forall w, word w -> exists c t, w = c :: t /\ is_w c = true /\ is_w (last w 0%N) = true).
  { intros w [H1 H2]. destruct w as [|c t]; [easy|]. exists c, t. split; [auto|]. split; [apply H2; now left|].
    apply H2. clear. revert c. induction t as [|d t IH]; intros c; [now left|]. right. apply (IH d). }
  intros [H|(p & n & Hp & Hn & ->)].
  - apply L in H as (c & t & -> & H1 & H2). exists c, t. eauto.
  - apply L in Hp as (c & t & -> & H1 & H2). exists c, (t ++ $"." ++ n). split; [reflexivity|].
    split; [exact H1|]. eexists. split; [reflexivity|].
    apply L in Hn as (c' & t' & -> & H3 & H4). rewrite !app_assoc.
    assert (G : forall (a b : str) x, b <> [] -> last (a ++ b) x = last b x).
    { clear. induction a as [|y a IH]; intros b x Hb; [reflexivity|]. cbn [app]. rewrite <- (IH b x Hb).
      destruct a, b; try easy. }
    rewrite G; [exact H4|easy].
Qed.
(** Braces around a name are stripped off, and nothing else. *)
Definition is_brace (c : char) := (N.eqb c 123 || N.eqb c 125)%bool.
Lemma strip_ref r ref : reference (Some r) ref -> strip_p is_brace ref = r.
Proof.
  inversion 1 as [|E1|n Hn]; subst; [reflexivity|].
  apply name_head in Hn as (c & t & E & Hc & d & Hd & Hw).
  assert (B : forall c, is_w c = true -> is_brace c = false).
  { clear. intros c. unfold is_brace, is_w, is_d, is_lower_az, is_upper_AZ, between. lia. }
  unfold strip_p. change ($"{") with [123%N]. cbn [app lstrip_p].
  change (is_brace 123%N) with true. cbv iota.
  rewrite (lstrip_p_id is_brace (r ++ $"}")) by (rewrite E; now apply B).
  unfold rstrip_p. rewrite rev_app_distr. change (rev ($"}")) with [125%N]. cbn [app lstrip_p].
  change (is_brace 125%N) with true. cbv iota. change (rev (lstrip_p is_brace (rev r))) with (rstrip_p is_brace r).
  apply rstrip_p_id. assert (Hr : r = removelast r ++ [d]) by (rewrite <- Hd; apply app_removelast_last; now rewrite E).
  rewrite Hr, rev_app_distr. cbn [rev app]. now apply B.
Qed.

Definition caps_of (a op : str) (ref : option str) (v : str) : caps :=
  (4, v) :: match ref with Some r => [(3, r)] | None => [] end ++ [(2, op); (1, a)].
Lemma whole_D s s' cs : Dc (length s) whole_re s [] s' cs <->
  exists b1 a b2 op o ref r b3 v b4,
    s = written b1 a b2 op ref b3 v (b4 ++ s') /\ blanks b1 /\ blanks b2 /\ blanks b3 /\ blanks b4 /\
    at_end s' = true /\ name a /\ operator op o /\ reference r ref /\ value v /\
    cs = caps_of a op (match r with Some _ => Some ref | None => None end) v.
Proof.
  unfold whole_re. split.
  - intros (t10 & c10 & (t9 & c9 & (t8 & c8 & (t7 & c7 & (t6 & c6 & (t5 & c5 & (t4 & c4 & (t3 & c3 & (t2 & c2 &
      (t1 & c1 & [-> ->] & -> & -> & _) & Hb1) & Ha) & Hb2) & Ho) & Hr) & Hb3) & Hv) & Hb4) & Es & -> & He).
    subst t10.
    apply blank_D in Hb1 as (b1 & B1 & E1 & ->). destruct Ha as (ct & Ha & ->).
    apply name_D in Ha as (a & A & -> & ->). unfold str, char in *. rewrite firstn_sub in *.
    apply blank_D in Hb2 as (b2 & B2 & -> & ->). destruct Ho as (ct & Ho & ->).
    apply ops_D in Ho as (op & O & -> & ->). unfold str, char in *. rewrite firstn_sub in *.
    apply operator_iff in O as [o O].
    apply blank_D in Hb3 as (b3 & B3 & -> & ->). destruct Hv as (ct & Hv & ->).
    apply value_D in Hv as (v & V & -> & ->). unfold str, char in *. rewrite firstn_sub in *.
    apply blank_D in Hb4 as (b4 & B4 & -> & ->).
    destruct Hr as [(ct & [Hr|Hr] & ->)|[E ->]].
    + apply brace_D in Hr as (n & Hn & -> & ->). exists b1, a, b2, op, o, ($"{" ++ n ++ $"}"), (Some n), b3, v, b4.
      assert (E : $"{" ++ n ++ $"}" ++ b3 ++ v ++ b4 ++ s' = ($"{" ++ n ++ $"}") ++ b3 ++ v ++ b4 ++ s')
        by (rewrite <- !app_assoc; reflexivity).
      unfold str, char in *. rewrite E, firstn_sub. 
      do 8 (split; [first [exact E1|assumption|rewrite E1; unfold written; now rewrite <- ?app_assoc]|]).
      split; [now constructor|]. split; [assumption|reflexivity].
    + apply empty_D in Hr as (-> & ->). exists b1, a, b2, op, o, ($"{}"), (Some []), b3, v, b4.
      unfold str, char in *. rewrite firstn_sub.
      do 8 (split; [first [exact E1|assumption]|]).
      split; [now constructor|]. split; [assumption|reflexivity].
    + match type of E with _ = ?t => subst t end. exists b1, a, b2, op, o, [], None, b3, v, b4.
      do 8 (split; [first [exact E1|assumption]|]).
      split; [now constructor|]. split; [assumption|reflexivity].
  - intros (b1 & a & b2 & op & o & ref & r & b3 & v & b4 & E & B1 & B2 & B3 & B4 & He & A & O & R & V & ->).
    unfold written in E. remember (length s) as n0 eqn:En. exists s', (caps_of a op (match r with Some _ => Some ref | None => None end) v).
    split; [|easy].
    exists (b4 ++ s'), (caps_of a op (match r with Some _ => Some ref | None => None end) v).
    split; [|apply blank_D; eauto].
    exists (v ++ b4 ++ s'), (tl (caps_of a op (match r with Some _ => Some ref | None => None end) v)).
    split; [|eexists; split; [apply value_D; eauto|]; unfold str, char in *; now rewrite firstn_sub].
    exists (b3 ++ v ++ b4 ++ s'), (tl (caps_of a op (match r with Some _ => Some ref | None => None end) v)).
    split; [|apply blank_D; eauto].
    exists (ref ++ b3 ++ v ++ b4 ++ s'), [(2, op); (1, a)].
    split.
    2:{ destruct R as [| |n Hn]; [right; auto| |].
        - left. exists [(2, op); (1, a)]. split; [right; apply empty_D; auto|].
          unfold str, char in *. now rewrite firstn_sub.
        - left. exists [(2, op); (1, a)]. split.
          + left. apply brace_D. exists n. rewrite <- !app_assoc. auto.
          + unfold str, char in *. now rewrite firstn_sub. }
    exists (op ++ ref ++ b3 ++ v ++ b4 ++ s'), [(1, a)].
    split.
    2:{ eexists. split; [apply ops_D; exists op; split; [apply operator_iff; eauto|auto]|].
        unfold str, char in *. now rewrite firstn_sub. }
    exists (b2 ++ op ++ ref ++ b3 ++ v ++ b4 ++ s'), [(1, a)].
    split; [|apply blank_D; eauto].
    exists (a ++ b2 ++ op ++ ref ++ b3 ++ v ++ b4 ++ s'), [].
    split.
    2:{ eexists. split; [apply name_D; eauto|]. unfold str, char in *. now rewrite firstn_sub. }
    exists s, []. split; [|apply blank_D; eauto].
    exists s, []. split; [now split|]. split; [reflexivity|]. now split.
Qed.

Lemma at_end_blank s : at_end s = true -> blanks s.
Proof.
  destruct s as [|c [|d t]]; cbn [at_end]; [intros _ ? []| |discriminate].
  intros H x [<-|[]]. apply N.eqb_eq in H as ->. reflexivity.
Qed.
Lemma blanks_app a b : blanks (a ++ b) <-> blanks a /\ blanks b.
Proof.
  unfold blanks. split.
  - intros H. split; intros c Hc; apply H, in_or_app; auto.
  - intros [H1 H2] c Hc. apply in_app_or in Hc as [?|?]; auto.
Qed.

Lemma split_sound s a o r v : split_test s = Some (a, o, r, v) -> Test s a o r v.
Proof.
  unfold split_test. destruct (re_match expression_re s) as [[s' cs]|] eqn:E; [|discriminate].
  apply re_match_some in E. rewrite expression_re_eq in E.
  apply whole_D in E as (b1 & a' & b2 & op & o' & ref & r' & b3 & v' & b4 & Es & B1 & B2 & B3 & B4 & He & A & O & R & V & ->).
  intros H. exists b1, b2, op, ref, b3, (b4 ++ s'). apply operator_norm in O as O'.
  assert (G : a = a' /\ o = o' /\ r = r' /\ v = v').
  { destruct r' as [r'|]; unfold caps_of in H; cbn [group app Nat.eqb option_map] in H.
    - apply strip_ref in R as R'. unfold is_brace in R'. rewrite O', R' in H. now injection H as <- <- <- <-.
    - rewrite O' in H. now injection H as <- <- <- <-. }
  destruct G as (-> & -> & -> & ->). split; [exact Es|].
  do 3 (split; [assumption|]). split; [apply blanks_app; split; [exact B4|now apply at_end_blank]|]. auto.
Qed.
Lemma split_none s : split_test s = None <-> ~ exists a o r v, Test s a o r v.
Proof.
  split.
  - intros H (a & o & r & v & b1 & b2 & op & ref & b3 & b4 & Es & B1 & B2 & B3 & B4 & A & O & R & V).
    unfold split_test in H. destruct (re_match expression_re s) as [[s' cs]|] eqn:E.
    + apply re_match_some in E. rewrite expression_re_eq in E.
      apply whole_D in E as (b1' & a' & b2' & op' & o' & ref' & r' & b3' & v' & b4' & Es' & _ & _ & _ & _ & _ & _ & _ & _ & _ & ->).
      destruct r'; cbn in H; discriminate.
    + rewrite re_match_none in E. eapply (E [] _). rewrite expression_re_eq. apply whole_D.
      exists b1, a, b2, op, o, ref, r, b3, v, b4. rewrite app_nil_r. do 9 (split; [first [assumption|reflexivity]|]).
      split; [assumption|reflexivity].
  - intros H. destruct (split_test s) as [[[[a o] r] v]|] eqn:E; [|reflexivity].
    apply split_sound in E. exfalso. apply H. eauto.
Qed.

Lemma orelse_l {R} (a b : option R) x : a = Some x -> orelse a b = Some x.
Proof. now intros ->. Qed.
Lemma orelse_r {R} (a b : option R) x : a = None -> b = Some x -> orelse a b = Some x.
Proof. now intros ->. Qed.

(** ** The match that is found *)
Section Found.
  Context {R : Type} (n0 : nat).
  Implicit Types (k : str -> caps -> option R) (x : R).

  Lemma m_cat a b s cs k y : m n0 a s cs (fun s' cs' => m n0 b s' cs' k) = y -> m n0 (Cat a b) s cs k = y.
  Proof. exact (fun H => H). Qed.
  Lemma m_grp n a s cs k y :
    m n0 a s cs (fun s' cs' => k s' ((n, firstn (length s - length s') s) :: cs')) = y -> m n0 (Grp n a) s cs k = y.
  Proof. exact (fun H => H). Qed.
  Lemma m_eps s cs k y : k s cs = y -> m n0 Eps s cs k = y.
  Proof. exact (fun H => H). Qed.
  Lemma m_bol s cs k y : length s = n0 -> k s cs = y -> m n0 Bol s cs k = y.
  Proof. intros E H. cbn [m]. now rewrite E, Nat.eqb_refl. Qed.
  Lemma m_blank b rest cs k x : blanks b -> stops is_space rest -> k rest cs = Some x ->
    m n0 (Star true scls) (b ++ rest) cs k = Some x.
  Proof.
    intros Hb Hs Hk. cbn [m]. apply star_g_run; [rewrite all_scls; now apply blanks_iff| |exact Hk].
    destruct rest; [exact I|]. cbn [stops] in *. now rewrite mem_scls.
  Qed.
  (** Not starting with a blank, the blanks match nothing else. *)
  Lemma m_blank_none c t cs k : is_space c = false -> k (c :: t) cs = None ->
    m n0 (Star true scls) (c :: t) cs k = None.
  Proof. intros H Hk. cbn [m star_g]. now rewrite mem_scls, H. Qed.

  (** The lazy word stops where the rest goes on. *)
  Lemma m_word w rest cs k x : word w -> k rest cs = Some x ->
    (forall c t, is_w c = true -> k (c :: t) cs = None) ->
    m n0 (wplus false) (w ++ rest) cs k = Some x.
  Proof.
    intros Hw Hk Hn. apply word_iff in Hw as [Hne Hw]. destruct w as [|c w]; [easy|].
    cbn [forallb] in Hw. apply andb_true_iff in Hw as [Hc Hw]. cbn [wplus m app].
    rewrite mem_wcls, Hc. apply star_l_run; [now rewrite all_wcls|exact Hk|].
    intros a1 [|c' a2] -> H; [easy|]. apply Hn.
    rewrite forallb_app in Hw. apply andb_true_iff in Hw as [_ Hw]. cbn [forallb] in Hw.
    now apply andb_true_iff in Hw as [Hw _].
  Qed.
  (** A prefix with a dot is not found in front of a single word. *)
  Lemma m_prefix_none w rest cs k : word w -> stops is_w rest -> stops (N.eqb 46) rest ->
    m n0 (Cat (Cat Eps (wplus true)) (Chr (ccls 46%N))) (w ++ rest) cs k = None.
  Proof.
    intros Hw H1 H2. destruct (m n0 _ (w ++ rest) cs k) eqn:E; [|reflexivity]. exfalso.
    apply mc_sound in E as (s' & cs' & (t & ct & (t1 & ct1 & [-> ->] & Hd) & c & -> & Hc & ->) & _).
    apply wplus_D in Hd as (a & Ha & E & ->). rewrite mem_ccls in Hc. apply N.eqb_eq in Hc as <-.
    apply word_iff in Hw as [_ Hw]. apply word_iff in Ha as [_ Ha].
    revert a Ha E. induction w as [|d w IH]; intros a Ha E; cbn [app] in E.
    - destruct a as [|e a]; cbn [app] in E; subst rest; cbn [stops] in *; [discriminate|].
      cbn [forallb] in Ha. rewrite H1 in Ha. discriminate.
    - cbn [forallb] in Hw. apply andb_true_iff in Hw as [Hd Hw]. destruct a as [|e a]; cbn [app] in E.
      + injection E as -> _. discriminate.
      + injection E as -> E. cbn [forallb] in Ha. apply andb_true_iff in Ha as [_ Ha]. eauto.
  Qed.
  Lemma m_opt_prefix p rest cs k x : word p -> k rest cs = Some x ->
    m n0 (Opt true (Cat (Cat Eps (wplus true)) (Chr (ccls 46%N)))) (p ++ $"." ++ rest) cs k = Some x.
  Proof.
    intros Hp Hk. assert (E : m n0 (Cat (Cat Eps (wplus true)) (Chr (ccls 46%N))) (p ++ $"." ++ rest) cs k = Some x).
    { apply word_iff in Hp as [Hne Hp]. destruct p as [|c p]; [easy|].
      cbn [forallb] in Hp. apply andb_true_iff in Hp as [Hc Hp]. cbn [wplus m app].
      rewrite mem_wcls, Hc. apply star_g_run; [now rewrite all_wcls|reflexivity|]. exact Hk. }
    cbn [m] in E |- *. now rewrite E.
  Qed.
  Lemma m_name a rest cs k x : name a -> stops is_w rest -> stops (N.eqb 46) rest -> k rest cs = Some x ->
    (forall c t, is_w c = true -> k (c :: t) cs = None) ->
    m n0 name_re (a ++ rest) cs k = Some x.
  Proof.
    intros [Hw|(p & w & Hp & Hw & ->)] H1 H2 Hk Hn.
    - assert (E := m_prefix_none a rest cs (fun s' cs' => m n0 (wplus false) s' cs' k) Hw H1 H2).
      assert (F := m_word a rest cs k x Hw Hk Hn).
      unfold name_re. change (m n0 (Cat (Cat Eps ?o) ?w) ?s ?c ?q) with (m n0 o s c (fun s' cs' => m n0 w s' cs' q)).
      change (m n0 (Opt true ?r) ?s ?c ?q) with (orelse (m n0 r s c q) (q s c)).
      apply orelse_r; [exact E|exact F].
    - rewrite <- !app_assoc.
      assert (F := m_word w rest cs k x Hw Hk Hn).
      exact (m_opt_prefix p (w ++ rest) cs (fun s' cs' => m n0 (wplus false) s' cs' k) x Hp F).
  Qed.
  Lemma m_name_none s cs k : stops is_w s -> m n0 name_re s cs k = None.
  Proof.
    intros H. destruct (m n0 name_re s cs k) eqn:E; [|reflexivity]. exfalso.
    apply mc_sound in E as (s' & cs' & Hd & _). apply name_D in Hd as (a & Ha & -> & _).
    apply name_head in Ha as (c & t & -> & Hc & _). cbn [app stops] in H. congruence.
  Qed.

  (** The longest operator is taken. *)
  Lemma m_ops op o rest cs k x : operator op o -> k rest cs = Some x ->
    (In op [$">"; $"<"; $"+"; $"-"] -> stops (N.eqb 61) rest) ->
    m n0 ops_re (op ++ rest) cs k = Some x.
  Proof.
    intros Ho Hk Hs.
    assert (F : In op [$">"; $"<"; $"+"; $"-"] -> rest = [] \/ exists c t, rest = c :: t /\ N.eqb 61 c = false).
    { intros H. apply Hs in H. destruct rest as [|c t]; [now left|right]. eauto. }
    destruct Ho; unfold ops_re, op1, op2; cbn [m app lit orelse Ascii.N_of_ascii Ascii.N_of_digits N.add N.mul];
      rewrite ?mem_ccls;
      repeat match goal with |- context[N.eqb ?a ?b] =>
        let e := eval vm_compute in (N.eqb a b) in change (N.eqb a b) with e end;
      cbv iota; cbn [orelse]; rewrite ?Hk; try reflexivity;
      (destruct F as [-> |(c & t & -> & F)]; [cbn; tauto|rewrite ?Hk; reflexivity|
        rewrite ?mem_ccls, ?F; cbn [orelse]; rewrite ?Hk; reflexivity]).
  Qed.
  Lemma m_ops_none c t cs k : is_w c = true -> m n0 ops_re (c :: t) cs k = None.
  Proof.
    intros H. destruct (m n0 ops_re (c :: t) cs k) eqn:E; [|reflexivity]. exfalso.
    apply mc_sound in E as (s' & cs' & Hd & _). apply ops_D in Hd as (o & Ho & E & _).
    assert (forall o', In o' op_list -> exists c' t', o' = c' :: t' /\ is_w c' = false) as G.
    { intros o' Ho'. cbn in Ho'. intuition; subst o'; eexists; eexists; (split; [reflexivity|reflexivity]). }
    apply G in Ho as (c' & t' & -> & Hc). injection E as -> _. congruence.
  Qed.

  (** The reference. *)
  Lemma m_ref r ref rest cs k x : reference r ref ->
    (r = None -> stops (N.eqb 123) rest) ->
    k rest (match r with Some _ => (3, ref) :: cs | None => cs end) = Some x ->
    m n0 (Opt true (Grp 3 (Alt brace_re empty_re))) (ref ++ rest) cs k = Some x.
  Proof.
    intros Hr Hs Hk.
    assert (Hne : forall r', Some r' = r -> m n0 (Alt brace_re empty_re) (ref ++ rest) cs
              (fun s' cs' => k s' ((3, firstn (length (ref ++ rest) - length s') (ref ++ rest)) :: cs')) = Some x).
    { intros r' <-.
      set (k' := fun s' cs' => k s' ((3, firstn (length (ref ++ rest) - length s') (ref ++ rest)) :: cs')).
      assert (Hk' : k' rest cs = Some x) by (unfold k', str, char in *; now rewrite firstn_sub).
      change (m n0 (Alt ?a ?b) ?s ?c ?q) with (orelse (m n0 a s c q) (m n0 b s c q)).
      inversion Hr as [|E1 E2|n Hn E1 E2]; subst.
      - assert (E : m n0 brace_re ($"{}" ++ rest) cs k' = None).
        { destruct (m n0 brace_re _ cs k') eqn:E; [|reflexivity]. exfalso.
          apply mc_sound in E as (s' & cs' & Hd & _). apply brace_D in Hd as (a & Ha & E & _).
          apply name_head in Ha as (c & t & -> & Hc & _). injection E as <- _. discriminate. }
        apply orelse_r; [exact E|exact Hk'].
      - assert (E : m n0 brace_re (($"{" ++ r' ++ $"}") ++ rest) cs k' = Some x).
        { rewrite <- !app_assoc.
          change (m n0 brace_re ($"{" ++ r' ++ $"}" ++ rest) cs k') with
            (m n0 name_re (r' ++ $"}" ++ rest) cs (fun s' cs' => m n0 (Chr (ccls 125%N)) s' cs' k')).
          apply m_name; [exact Hn|reflexivity|reflexivity|exact Hk'|].
          intros c t Hc. cbn [m]. rewrite mem_ccls. destruct (N.eqb_spec 125 c); [now subst|reflexivity]. }
        apply orelse_l. exact E. }
    change (m n0 (Opt true ?a) ?s ?c ?q) with (orelse (m n0 a s c q) (q s c)).
    change (m n0 (Grp 3 ?a) ?s ?c ?q) with
      (m n0 a s c (fun s' cs' => q s' ((3, firstn (length s - length s') s) :: cs'))).
    destruct r as [r|].
    - apply orelse_l. exact (Hne r eq_refl).
    - inversion Hr; subst. cbn [app].
      assert (E : forall k', m n0 (Alt brace_re empty_re) rest cs k' = None).
      { intros k'. destruct (m n0 _ rest cs k') eqn:E; [|reflexivity]. exfalso.
        apply mc_sound in E as (s' & cs' & [Hd|Hd] & _).
        - apply brace_D in Hd as (a & _ & -> & _). specialize (Hs eq_refl). discriminate.
        - apply empty_D in Hd as (-> & _). specialize (Hs eq_refl). discriminate. }
      apply orelse_r; [apply E|exact Hk].
  Qed.

  (** The value extends to the end of the line. *)
  Lemma m_value v rest cs k x : value v -> stops (fun c => negb (N.eqb NL c)) rest -> k rest cs = Some x ->
    m n0 value_re (v ++ rest) cs k = Some x.
  Proof.
    intros [Hn Hv] Hs Hk. destruct v as [|c v]; [easy|]. cbn [value_re m app].
    assert (G : forall c', In c' (c :: v) -> mem dot_cls c' = true).
    { intros c' Hc'. rewrite mem_dot. destruct (N.eqb_spec NL c'); [subst; tauto|reflexivity]. }
    rewrite G by now left. apply star_g_run; [apply forallb_forall; intros c' Hc'; apply G; now right| |exact Hk].
    destruct rest; [exact I|]. cbn [stops] in *. now rewrite mem_dot.
  Qed.
End Found.

Lemma stops_not p s : not_starting (fun c => p c = true) s <-> stops p s.
Proof. destruct s; cbn; [easy|]. now rewrite not_true_iff_false. Qed.
Lemma operator_head op o : operator op o -> exists c t, op = c :: t /\ is_w c = false /\ is_space c = false /\ N.eqb 46 c = false.
Proof. intros []; eexists; eexists; (split; [reflexivity|auto]). Qed.
Lemma blanks_stops p b rest : blanks b -> (forall c, is_space c = true -> p c = false) ->
  (b = [] -> stops p rest) -> stops p (b ++ rest).
Proof. intros Hb Hp Hr. destruct b as [|c b]; [auto|]. cbn [app stops]. apply Hp, Hb. now left. Qed.

Lemma split_found b1 a b2 op o r ref b3 v b4 :
  blanks b1 -> name a -> blanks b2 -> operator op o -> reference r ref -> blanks b3 -> value v ->
  blanks b4 -> not_starting (fun c => c <> NL) b4 -> not_starting (fun c => is_space c = true) v ->
  (b3 = [] -> r = None -> not_starting (eq 123%N) v) ->
  (b3 = [] -> r = None -> In op [$">"; $"<"; $"+"; $"-"] -> not_starting (eq 61%N) v) ->
  split_test (written b1 a b2 op ref b3 v b4) = Some (a, o, r, v).
Proof.
  intros B1 A B2 O R B3 V B4 N4 Nv Nr No.
  assert (E : re_match expression_re (written b1 a b2 op ref b3 v b4) =
              Some ([], caps_of a op (match r with Some _ => Some ref | None => None end) v)).
  { unfold re_match, written. rewrite expression_re_eq. unfold whole_re.
    set (s := b1 ++ a ++ b2 ++ op ++ ref ++ b3 ++ v ++ b4).
    set (n0 := length s).
    destruct (operator_head op o O) as (oc & ot & Eop & Hop1 & Hop2 & Hop3).
    destruct (name_head a A) as (ac & at' & Ea & Hac & _).
    assert (Ns : forall c, is_space c = true -> N.eqb 123 c = false /\ N.eqb 61 c = false /\ is_w c = false /\ N.eqb 46 c = false).
    { clear. intros c. unfold is_space, is_w, is_d, is_lower_az, is_upper_AZ, between. lia. }
    do 10 apply m_cat. apply m_eps, m_bol; [reflexivity|].
    apply m_blank; [exact B1| |].
    { rewrite Ea. cbn [app stops]. destruct (is_space ac) eqn:E; [|reflexivity]. apply space_not_w in E. congruence. }
    apply m_grp, m_name; [exact A| | | |].
    { apply blanks_stops; [exact B2|apply Ns|]. intros _. rewrite Eop. exact Hop1. }
    { apply blanks_stops; [exact B2|apply Ns|]. intros _. rewrite Eop. exact Hop3. }
    2:{ intros c t Hc. apply m_blank_none.
        - destruct (is_space c) eqn:E; [|reflexivity]. apply space_not_w in E. congruence.
        - apply m_grp, m_ops_none, Hc. }
    unfold str, char in *. rewrite firstn_sub.
    apply m_blank; [exact B2| |].
    { rewrite Eop. exact Hop2. }
    apply m_grp. apply (m_ops n0 op o); [exact O| |].
    2:{ intros Hin. destruct R as [| |n Hn]; [|reflexivity|reflexivity]. cbn [app].
        apply blanks_stops; [exact B3|apply Ns|]. intros ->. specialize (No eq_refl eq_refl Hin).
        destruct v as [|c v]; [now destruct V|]. cbn [app stops] in *. now apply N.eqb_neq. }
    unfold str, char in *. rewrite firstn_sub.
    apply (m_ref n0 r ref); [exact R| |].
    { intros ->. apply blanks_stops; [exact B3|apply Ns|]. intros ->. specialize (Nr eq_refl eq_refl).
      destruct v as [|c v]; [now destruct V|]. cbn [app stops] in *. now apply N.eqb_neq. }
    apply m_blank; [exact B3| |].
    { destruct v as [|c v]; [now destruct V|]. cbn [app stops not_starting] in *. now apply not_true_iff_false. }
    apply m_grp, m_value; [exact V| |].
    { destruct b4 as [|c b4]; [exact I|]. cbn [stops not_starting] in *.
      destruct (N.eqb_spec NL c); [reflexivity|]. exfalso. apply N4. congruence. }
    unfold str, char in *. rewrite firstn_sub.
    replace b4 with (b4 ++ []) by apply app_nil_r.
    apply m_blank; [exact B4|exact I|]. cbn [m at_end]. destruct r; reflexivity. }
  unfold split_test. rewrite E. unfold caps_of.
  apply operator_norm in O as O'. destruct r as [r|]; cbn [group app Nat.eqb option_map].
  - apply strip_ref in R. unfold is_brace in R. now rewrite O', R.
  - now rewrite O'.
Qed.
Lemma split_writes s a o r v : Writes s a o r v -> split_test s = Some (a, o, r, v).
Proof. intros H. destruct H. now apply split_found. Qed.
