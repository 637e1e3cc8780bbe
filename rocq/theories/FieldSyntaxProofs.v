(** Proofs about the syntax of fields (C69). *)
From Coq Require Import List NArith ZArith Bool Lia.
From Coq Require Import ZifyBool ZifyN.
From Verif Require Import Py Re TypeModel RegistryModel ArgsValueProofs FieldModel FieldSyntax.
Import ListNotations.

Ltac aa := unfold str, char in *; repeat rewrite <- app_assoc; reflexivity.
Definition AL : cls := Cls false false [CRange 97 122; CRange 65 90]%N.
Definition WD : cls := Cls false false [CRange 97 122; CRange 65 90; CRange 48 57; CChar 95]%N.
Definition DG : cls := Cls false false [CDigit false].
Definition one (c : char) : cls := Cls false false [CChar c].
Definition ident_re (g : bool) (pre : re) : re := Cat (Cat pre (Chr AL)) (Cat (Chr WD) (Star g WD)).
Definition name_re : re := ident_re false (Cat Eps (Opt true (Cat (ident_re true Eps) (Chr (one 46%N))))).
Definition width_re : re := Cat (Cat Eps (Opt true (Chr (one 45%N)))) (Cat (Chr DG) (Star true DG)).
Definition mod_re : re :=
  Alt (Alt (Alt (Alt (Cat Eps (Chr (one 104%N))) (Cat Eps (Chr (one 111%N)))) (Cat Eps (Chr (one 120%N)))) (Cat Eps (Chr (one 110%N)))) (Cat Eps (Chr (one 118%N))).
Lemma field_re_eq : field_re =
  Cat (Cat (Cat (Cat Eps Bol) (Grp 1 name_re)) (Opt true (Cat (Cat (Cat Eps (Chr (one 58%N))) (Opt true (Grp 2 width_re))) (Opt true (Grp 3 mod_re))))) Eol.
Proof. reflexivity. Qed.

Lemma mem_AL c : mem AL c = true <-> letter c.
Proof. unfold AL, letter. rewrite mem_pos. cbn [items_mem existsb item_mem]. unfold between. lia. Qed.
Lemma mem_WD c : mem WD c = true <-> wordchar c.
Proof. unfold WD, wordchar, letter, digit. rewrite mem_pos. cbn [items_mem existsb item_mem]. unfold between. lia. Qed.
Lemma mem_DG c : mem DG c = true <-> digit c.
Proof. unfold DG, digit. rewrite mem_pos. cbn [items_mem existsb item_mem]. unfold is_d, between. lia. Qed.
Lemma mem_one a c : mem (one a) c = true <-> c = a.
Proof. unfold one. rewrite mem_pos. cbn [items_mem existsb item_mem]. lia. Qed.
Lemma all_mem p (P : char -> Prop) l : (forall c, mem p c = true <-> P c) -> forallb (mem p) l = true <-> forall c, In c l -> P c.
Proof. intros H. rewrite forallb_forall. split; intros K c I; apply H, K, I. Qed.

Lemma Dc_ident n0 g pre s cs s' cs' : Dc n0 (ident_re g pre) s cs s' cs' <->
  exists t, Dc n0 pre s cs t cs' /\ exists a, Ident a /\ t = a ++ s'.
Proof.
  unfold ident_re. cbn [Dc]. split.
  - intros (t & ct & (u & cu & P & c & -> & Hc & ->) & v & cv & (d & -> & Hd & ->) & a & -> & Ha & ->).
    exists (c :: d :: a ++ s'). split; [exact P|]. exists (c :: d :: a). split; [|reflexivity]. exists c, d, a. split; [reflexivity|].
    split; [now apply mem_AL|]. split; [now apply mem_WD|]. exact (proj1 (all_mem WD wordchar a mem_WD) Ha).
  - intros (t & P & a & (c & d & a' & -> & Hc & Hd & Ha) & ->). exists (d :: a' ++ s'), cs'. split.
    + exists (c :: d :: a' ++ s'), cs'. split; [exact P|]. exists c. split; [reflexivity|]. split; [now apply mem_AL|reflexivity].
    + exists (a' ++ s'), cs'. split; [exists d; split; [reflexivity|]; split; [now apply mem_WD|reflexivity]|].
      exists a'. split; [reflexivity|]. split; [exact (proj2 (all_mem WD wordchar a' mem_WD) Ha)|reflexivity].
Qed.
Lemma Dc_name n0 s cs s' cs' : Dc n0 name_re s cs s' cs' <-> cs' = cs /\ exists a, FieldName a /\ s = a ++ s'.
Proof.
  unfold name_re. rewrite Dc_ident. split.
  - intros (t & (u & cu & [-> ->] & [P|[-> ->]]) & a & Ha & ->).
    + destruct P as (v & cv & P & c & E & Hc & ->). apply mem_one in Hc. subst c. apply Dc_ident in P as (x & [-> ->] & p & Hp & ->).
      split; [reflexivity|]. exists (p ++ $"." ++ a). split; [right; exists p, a; auto|]. rewrite E. aa.
    + split; [reflexivity|]. exists a. split; [now left|reflexivity].
  - intros (-> & a & [Ha|(p & b & Hp & Hb & ->)] & ->).
    + exists (a ++ s'). split; [|exists a; auto]. exists (a ++ s'), cs. split; [split; reflexivity|]. right. split; reflexivity.
    + exists (b ++ s'). split; [|exists b; auto]. exists ((p ++ $"." ++ b) ++ s'), cs. split; [split; reflexivity|]. left.
      exists ($"." ++ b ++ s'), cs. split.
      * apply Dc_ident. exists ((p ++ $"." ++ b) ++ s'). split; [split; reflexivity|]. exists p. split; [exact Hp|]. aa.
      * exists 46%N. split; [reflexivity|]. split; [now apply mem_one|reflexivity].
Qed.
Lemma Dc_width n0 s cs s' cs' : Dc n0 width_re s cs s' cs' <-> cs' = cs /\ exists w, Width (Some w) /\ s = w ++ s'.
Proof.
  unfold width_re. split.
  - intros (t & ct & (u & cu & [-> ->] & P) & D). apply Dc_plus in D as (a & N & -> & Ha & ->).
    assert (A := proj1 (all_mem DG digit a mem_DG) Ha). destruct P as [(c & -> & Hc & ->)|[<- ->]].
    + apply mem_one in Hc. subst c. split; [reflexivity|]. exists (45%N :: a). split; [|reflexivity]. intros w [= <-]. exists a. auto.
    + split; [reflexivity|]. exists a. split; [|reflexivity]. intros w [= <-]. exists a. auto.
  - intros (-> & w & W & ->). destruct (W w eq_refl) as (ds & C & N & H). exists (ds ++ s'), cs. split.
    + exists (w ++ s'), cs. split; [split; reflexivity|]. destruct C as [->| ->]; [right; split; reflexivity|].
      left. exists 45%N. split; [reflexivity|]. split; [now apply mem_one|reflexivity].
    + apply Dc_plus. exists ds. split; [exact N|]. split; [reflexivity|]. split; [|reflexivity]. exact (proj2 (all_mem DG digit ds mem_DG) H).
Qed.
Lemma Dc_mod n0 s cs s' cs' : Dc n0 mod_re s cs s' cs' <-> cs' = cs /\ exists m, Modifier (Some m) /\ s = m ++ s'.
Proof.
  assert (C : forall c, Dc n0 (Cat Eps (Chr (one c))) s cs s' cs' <-> cs' = cs /\ s = c :: s').
  { intros c. cbn [Dc]. split.
    - intros (t & ct & [-> ->] & d & -> & Hd & ->). apply mem_one in Hd. subst d. auto.
    - intros [-> ->]. exists (c :: s'), cs. split; [auto|]. exists c. split; [reflexivity|]. split; [now apply mem_one|reflexivity]. }
  unfold mod_re. cbn [Dc] in C |- *. rewrite !C. split.
  - intros [[[[H|H]|H]|H]|H]; destruct H as [-> ->]; (split; [reflexivity|]);
      [exists ($"h")|exists ($"o")|exists ($"x")|exists ($"n")|exists ($"v")]; (split; [|reflexivity]); intros x [= <-]; cbn; auto 7.
  - intros (-> & m & M & ->). specialize (M m eq_refl). cbn in M. destruct M as [<-|[<-|[<-|[<-|[<-|[]]]]]]; cbn; auto 7.
Qed.

(** the captured groups *)
Definition caps_of (name : str) (w m : option str) : caps :=
  match m with Some m => [(3%nat, m)] | None => [] end ++ match w with Some w => [(2%nat, w)] | None => [] end ++ [(1%nat, name)].
Lemma field_match s s' cs : Dc (length s) field_re s [] s' cs <->
  exists name w m t, FieldText t name w m /\ s = t ++ s' /\ at_end s' = true /\ cs = caps_of name w m.
Proof.
  rewrite field_re_eq. split.
  - intros (t & ct & (u & cu & (v & cv & (x & cx & [-> ->] & -> & -> & _) & (cn & N & ->)) & O) & -> & -> & AE).
    apply Dc_name in N as (-> & name & HN & ->). rewrite firstn_sub in O. destruct O as [O|[-> ->]].
    + destruct O as (x & cx & (y & cy & (z & cz & [-> ->] & c & -> & Hc & ->) & OW) & OM). apply mem_one in Hc. subst c.
      assert (W : exists w, Width w /\ y = opt w ++ x /\ cx = match w with Some w => [(2%nat, w)] | None => [] end ++ [(1%nat, name)]).
      { destruct OW as [(cw & P & ->)|[-> ->]].
        - apply Dc_width in P as (-> & w & HW & ->). rewrite firstn_sub. exists (Some w). auto.
        - exists None. split; [intros ? [=]|]. auto. }
      destruct W as (w & HW & -> & ->).
      assert (M : exists m, Modifier m /\ x = opt m ++ t /\ ct = match m with Some m => [(3%nat, m)] | None => [] end ++ match w with Some w => [(2%nat, w)] | None => [] end ++ [(1%nat, name)]).
      { destruct OM as [(cm & P & ->)|[-> ->]].
        - apply Dc_mod in P as (-> & m & HM & ->). rewrite firstn_sub. exists (Some m). auto.
        - exists None. split; [intros ? [=]|]. auto. }
      destruct M as (m & HM & -> & ->). exists name, w, m, (name ++ $":" ++ opt w ++ opt m). split; [now constructor|].
      split; [aa|]. split; [exact AE|reflexivity].
    + exists name, None, None, name. split; [now constructor|]. auto.
  - intros (name & w & m & t & F & -> & AE & ->). exists s', (caps_of name w m). split; [|split; [reflexivity|split; [reflexivity|exact AE]]].
    assert (G1 : forall r cs, FieldName name -> Dc (length (name ++ r)) (Grp 1 name_re) (name ++ r) cs r ((1%nat, name) :: cs)).
    { intros r cs HN. exists cs. split; [apply Dc_name; split; [reflexivity|]; exists name; auto|]. now rewrite firstn_sub. }
    destruct F as [name HN|name w m HN HW HM].
    + exists s', [(1%nat, name)]. split; [|right; split; reflexivity]. exists (name ++ s'), []. split; [exists (name ++ s'), []; repeat split|]. now apply G1.
    + exists ($":" ++ opt w ++ opt m ++ s'), [(1%nat, name)]. split.
      * exists ((name ++ $":" ++ opt w ++ opt m) ++ s'), []. split; [exists ((name ++ $":" ++ opt w ++ opt m) ++ s'), []; repeat split|].
        assert (H := G1 ($":" ++ opt w ++ opt m ++ s') [] HN). replace ((name ++ $":" ++ opt w ++ opt m) ++ s') with (name ++ $":" ++ opt w ++ opt m ++ s') by aa.
        exact H.
      * left. exists (opt m ++ s'), (match w with Some w => [(2%nat, w)] | None => [] end ++ [(1%nat, name)]). split.
        -- exists (opt w ++ opt m ++ s'), [(1%nat, name)]. split.
           ++ exists ($":" ++ opt w ++ opt m ++ s'), [(1%nat, name)]. split; [split; reflexivity|]. exists 58%N. split; [reflexivity|]. split; [now apply mem_one|reflexivity].
           ++ destruct w as [w|]; [left|right; split; reflexivity]. exists [(1%nat, name)]. split; [apply Dc_width; split; [reflexivity|]; exists w; auto|].
              cbn [opt app]. now rewrite firstn_sub.
        -- destruct m as [m|]; [left|right; split; reflexivity]. exists (match w with Some w => [(2%nat, w)] | None => [] end ++ [(1%nat, name)]).
           split; [apply Dc_mod; split; [reflexivity|]; exists m; auto|]. cbn [opt]. now rewrite firstn_sub.
Qed.

(** The reading of a text is unique. *)
Lemma ident_chars s : Ident s -> s <> [] /\ forall c, In c s -> wordchar c.
Proof. intros (c & d & t & -> & H1 & H2 & H3). split; [discriminate|]. intros x [<-|[<-|H]]; auto. now left. Qed.
Lemma name_chars s : FieldName s -> s <> [] /\ forall c, In c s -> c <> 58%N /\ is_space c = false.
Proof.
  assert (W : forall c, wordchar c -> c <> 58%N /\ is_space c = false) by (intros c; unfold wordchar, letter, digit, is_space, between; lia).
  intros [H|(p & a & Hp & Ha & ->)].
  - apply ident_chars in H as [N H]. split; [exact N|]. intros c I. apply W, H, I.
  - apply ident_chars in Hp as [Np Hp]. apply ident_chars in Ha as [_ Ha]. split; [destruct p; [easy|discriminate]|].
    intros c I. apply in_app_or in I as [I|I]; [now apply W, Hp|]. destruct I as [<-|I]; [split; [discriminate|reflexivity]|now apply W, Ha].
Qed.
Lemma first_colon (a b r t : str) : ~ In 58%N a -> ~ In 58%N b -> a ++ 58%N :: r = b ++ 58%N :: t -> a = b /\ r = t.
Proof.
  revert b. induction a as [|x a IH]; intros [|y b] Ha Hb E; cbn in E.
  - injection E as ->. auto.
  - injection E as <- _. exfalso. apply Hb. now left.
  - injection E as -> _. exfalso. apply Ha. now left.
  - injection E as -> E. destruct (IH b) as [-> ->]; auto; intros I; [apply Ha|apply Hb]; now right.
Qed.
Lemma width_mod_unique w m w' m' : Width w -> Width w' -> Modifier m -> Modifier m' -> opt w ++ opt m = opt w' ++ opt m' -> w = w' /\ m = m'.
Proof.
  assert (WC : forall w, Width w -> forall c, In c (opt w) -> c = 45%N \/ digit c).
  { intros [x|] H c I; [|destruct I]. destruct (H x eq_refl) as (ds & C & _ & D). cbn in I. destruct C as [->| ->]; [right; now apply D|].
    destruct I as [<-|I]; [now left|right; now apply D]. }
  assert (MC : forall m, Modifier m -> m = None \/ exists c, m = Some [c] /\ letter c).
  { intros [x|] H; [right|now left]. specialize (H x eq_refl). cbn in H. destruct H as [<-|[<-|[<-|[<-|[<-|[]]]]]];
      eexists; (split; [reflexivity|]); unfold letter; lia. }
  intros HW HW' HM HM' E.
  assert (K : opt w = opt w' /\ m = m').
  { assert (L : forall a b, a ++ opt m = b ++ opt m' -> (forall c, In c a -> c = 45%N \/ digit c) -> (forall c, In c b -> c = 45%N \/ digit c) -> a = b /\ m = m').
    { induction a as [|x a IH]; intros [|y b] E' Ha Hb.
      - split; [reflexivity|]. destruct (MC m HM) as [->|(c & -> & _)], (MC m' HM') as [->|(c' & -> & _)]; cbn in E'; congruence.
      - exfalso. destruct (MC m HM) as [->|(c & -> & Lc)]; cbn in E'; [discriminate|]. injection E' as -> E'.
        destruct (Hb y (or_introl eq_refl)) as [->|D]; unfold letter, digit in *; lia.
      - exfalso. destruct (MC m' HM') as [->|(c & -> & Lc)]; cbn in E'; [discriminate|]. injection E' as -> E'.
        destruct (Ha c (or_introl eq_refl)) as [->|D]; unfold letter, digit in *; lia.
      - cbn in E'. injection E' as -> E'. destruct (IH b E') as [-> ->]; auto; intros c I; [apply Ha|apply Hb]; now right. }
    apply L; [exact E|exact (WC w HW)|exact (WC w' HW')]. }
  destruct K as [K ->]. split; [|reflexivity].
  destruct w as [x|], w' as [y|]; cbn in K; try congruence.
  - destruct (HW x eq_refl) as (ds & C & N & _). destruct ds; [easy|]. destruct C; congruence.
  - destruct (HW' y eq_refl) as (ds & C & N & _). destruct ds; [easy|]. destruct C; congruence.
Qed.
Lemma field_text_unique t : forall name w m name' w' m', FieldText t name w m -> FieldText t name' w' m' -> name = name' /\ w = w' /\ m = m'.
Proof.
  intros name w m name' w' m' H H'.
  assert (NC : forall n, FieldName n -> ~ In 58%N n) by (intros n Hn I; now apply (proj2 (name_chars n Hn)) in I).
  destruct H as [name HN|name w m HN HW HM]; inversion H' as [n1 HN' E1 E2 E3 E4|n1 w1 m1 HN' HW' HM' E1 E2 E3 E4]; subst; auto.
  - exfalso. apply (NC _ HN). apply in_or_app. right. now left.
  - exfalso. apply (NC _ HN'). apply in_or_app. right. now left.
  - destruct (first_colon name' name (opt w' ++ opt m') (opt w ++ opt m)) as [-> E]; auto.
    destruct (width_mod_unique w m w' m') as [-> ->]; auto.
Qed.
Lemma field_text_edges t name w m : FieldText t name w m -> t <> [] /\ edges is_space t.
Proof.
  intros H.
  assert (A : t <> [] /\ forall c, In c t -> is_space c = false).
  { destruct H as [name HN|name w m HN HW HM]; [destruct (name_chars name HN) as [N C]; split; [exact N|intros c I; apply C, I]|].
    destruct (name_chars name HN) as [N C]. split; [destruct name; [easy|discriminate]|].
    intros c I. apply in_app_or in I as [I|I]; [apply C, I|]. destruct I as [<-|I]; [reflexivity|].
    change (In c (opt w ++ opt m)) in I. apply in_app_or in I as [I|I].
    - destruct w as [x|]; [|destruct I]. destruct (HW x eq_refl) as (ds & K & _ & D). cbn in I.
      assert (I' : c = 45%N \/ digit c) by (destruct K as [->| ->]; [right; now apply D|destruct I as [<-|I]; [now left|right; now apply D]]).
      unfold digit, is_space, between in *. lia.
    - destruct m as [x|]; [|destruct I]. specialize (HM x eq_refl). cbn in HM, I. destruct HM as [<-|[<-|[<-|[<-|[<-|[]]]]]]; destruct I as [<-|[]]; reflexivity. }
  split; [apply A|]. split.
  - destruct t; [exact I|apply A; now left].
  - destruct (rev t) eqn:E; [exact I|]. apply A. apply in_rev. rewrite E. now left.
Qed.

Lemma strip_edges s : edges is_space (strip s).
Proof. destruct (strip_split is_space s) as (l & r & _ & _ & _ & H). exact H. Qed.
Lemma strip_end s a s' : strip s = a ++ s' -> at_end s' = true -> s' = [].
Proof.
  intros E AE. destruct s' as [|c [|d s']]; [reflexivity| |discriminate]. exfalso. cbn in AE. apply N.eqb_eq in AE. subst c.
  assert (H := proj2 (strip_edges s)). rewrite E, rev_app_distr in H. cbn in H. discriminate.
Qed.
Lemma strip_field s name w m : FieldText (strip s) name w m <-> exists l t r, s = l ++ t ++ r /\ blanks l /\ blanks r /\ FieldText t name w m.
Proof.
  split.
  - intros H. destruct (strip_split is_space s) as (l & r & E & Hl & Hr & _). exists l, (strip s), r. split; [exact E|].
    rewrite forallb_forall in Hl, Hr. auto.
  - intros (l & t & r & -> & Hl & Hr & F). destruct (field_text_edges t name w m F) as [N ED]. unfold strip.
    rewrite strip_app; auto; now apply forallb_forall.
Qed.
Lemma group_caps name w m : group 1 (caps_of name w m) = Some name /\ group 2 (caps_of name w m) = w /\ group 3 (caps_of name w m) = m.
Proof. destruct w, m; cbn; auto. Qed.
Lemma make_field_text registered init s name w m : FieldText (strip s) name w m ->
  make_field registered init s =
  do a <- setup_attribute registered init name; do t <- get_attribute_type registered a; Ok (Field a name t w m).
Proof.
  intros F. unfold make_field. destruct (re_match field_re (strip s)) as [[s' cs]|] eqn:M.
  - apply re_match_some in M. apply field_match in M as (name' & w' & m' & t & F' & E & AE & ->).
    assert (s' = []) by (eapply strip_end; eauto). subst s'. rewrite app_nil_r in E. rewrite <- E in F'.
    destruct (field_text_unique _ _ _ _ _ _ _ F F') as (<- & <- & <-). destruct (group_caps name w m) as (-> & -> & ->). reflexivity.
  - exfalso. apply (proj1 (re_match_none field_re (strip s)) M [] (caps_of name w m)). apply field_match.
    exists name, w, m, (strip s). rewrite app_nil_r. auto.
Qed.
Lemma make_field_other registered init s : (forall name w m, ~ FieldText (strip s) name w m) -> make_field registered init s = Err UsageError.
Proof.
  intros H. unfold make_field. destruct (re_match field_re (strip s)) as [[s' cs]|] eqn:M; [|reflexivity]. exfalso.
  apply re_match_some in M. apply field_match in M as (name & w & m & t & F & E & AE & _).
  assert (s' = []) by (eapply strip_end; eauto). subst s'. rewrite app_nil_r in E. rewrite <- E in F. exact (H _ _ _ F).
Qed.
Lemma make_field_iff registered init s f : make_field registered init s = Ok f <->
  exists l t r name w m a ty, s = l ++ t ++ r /\ blanks l /\ blanks r /\ FieldText t name w m /\
    setup_attribute registered init name = Ok a /\ get_attribute_type registered a = Ok ty /\ f = Field a name ty w m.
Proof.
  split.
  - intros H. unfold make_field in H. destruct (re_match field_re (strip s)) as [[s' cs]|] eqn:M; [|discriminate].
    apply re_match_some in M. apply field_match in M as (name & w & m & t & F & E & AE & ->).
    assert (s' = []) by (eapply strip_end; eauto). subst s'. rewrite app_nil_r in E. rewrite <- E in F.
    destruct (group_caps name w m) as (G1 & G2 & G3). rewrite G1, G2, G3 in H.
    destruct (setup_attribute registered init name) as [a|] eqn:S; [|discriminate]. cbn [bindr] in H.
    destruct (get_attribute_type registered a) as [ty|] eqn:T; [|discriminate]. cbn [bindr] in H. injection H as <-.
    apply strip_field in F as (l & t' & r & -> & Hl & Hr & F). exists l, t', r, name, w, m, a, ty. auto 9.
  - intros (l & t & r & name & w & m & a & ty & -> & Hl & Hr & F & S & T & ->).
    rewrite (make_field_text registered init _ name w m); [|apply strip_field; eauto 8]. now rewrite S; cbn [bindr]; rewrite T.
Qed.

(** A width is an integer. *)
Definition width_value (w : str) : Z :=
  match w with c :: ds => if (c =? 45)%N then (- Z.of_N (digits_val ds))%Z else Z.of_N (digits_val w) | [] => 0%Z end.
Lemma width_int w : Width (Some w) -> py_int w = Some (width_value w).
Proof.
  intros H. destruct (H w eq_refl) as (ds & C & N & D).
  assert (DG : forallb is_d ds = true) by (apply forallb_forall; intros x I; specialize (D x I); unfold digit, is_d, between in *; lia).
  destruct C as [->| ->].
  - rewrite py_int_digits by auto. destruct ds as [|c ds]; [easy|]. cbn [width_value].
    assert (c <> 45)%N by (specialize (D c (or_introl eq_refl)); unfold digit in D; lia). now replace (c =? 45)%N with false by lia.
  - unfold py_int. replace (strip (45%N :: ds)) with (45%N :: ds : str).
    + cbn [N.eqb]. rewrite int_digits_all by auto. reflexivity.
    + symmetry. unfold strip, strip_p. rewrite lstrip_p_id by reflexivity. apply rstrip_p_id. cbn [rev].
      destruct (rev ds) as [|c r] eqn:E; [reflexivity|]. cbn. apply is_d_not_space. rewrite forallb_forall in DG. apply DG. rewrite in_rev, E. now left.
Qed.
Lemma make_field_width registered init s f w : make_field registered init s = Ok f -> f_width f = Some w -> py_int w = Some (width_value w).
Proof.
  intros H Hw. apply make_field_iff in H as (l & t & r & name & w' & m & a & ty & _ & _ & _ & F & _ & _ & ->). cbn in Hw. subst w'.
  apply width_int. inversion F; subst; auto.
Qed.
