(** The list of options in the manual page *)
From Coq Require Import List NArith ZArith Bool Lia.
From Verif Require Import Py ArgsModel UsageModel HelpModel HelpSpec UsageSpec UsageProofs HelpProofs HelpPageProofs.
Import ListNotations.
Open Scope N_scope.

Lemma splitlines_from_line a : forall cur s, (forall c, In c a -> is_sep c = false) ->
  splitlines_from cur (a ++ NL :: s) = (rev cur ++ a) :: splitlines_from [] s.
Proof.
  induction a as [|c a IH]; intros cur s H.
  - cbn [app]. rewrite app_nil_r. cbn [splitlines_from]. change (is_sep NL) with true. cbv iota. f_equal.
    destruct s as [|d s]; reflexivity.
  - cbn [app splitlines_from]. rewrite (H c (or_introl eq_refl)). rewrite IH by (intros; apply H; now right). cbn [rev]. now rewrite <- app_assoc.
Qed.
Lemma splitlines_line a s : (forall c, In c a -> is_sep c = false) -> splitlines (a ++ NL :: s) = a :: splitlines s.
Proof. apply splitlines_from_line. Qed.

(** ** What the conditions say about the lines *)
Lemma head_in ws c : In c (join_with [32] ws) -> c = 32 \/ exists w, In w ws /\ In c w.
Proof. intros H. apply join_in in H as [[H|[]]|H]; [left; now symmetry|now right]. Qed.
Lemma plain_not ws c : (forall w, In w ws -> Plain w) -> In c (join_with [32] ws) -> is_sep c = false /\ c <> 34 /\ c <> 92.
Proof.
  intros P H. apply head_in in H as [->|(w & I & J)]; [repeat split; lia|].
  destruct (P w I) as [_ Q]. destruct (Q c J) as (_ & Q1 & Q2 & Q3). auto.
Qed.
(** The first two blanks in a row are those behind the heading. *)
Lemma split_word w : forall s a b, (forall c, In c w -> is_space c = false) -> split_two s = Some (a, b) -> split_two (w ++ s) = Some (w ++ a, b).
Proof.
  induction w as [|c w IH]; intros s a b H E; [exact E|]. cbn [app split_two].
  assert (X : starts_with [32; 32] (c :: w ++ s) = false).
  { cbn [starts_with]. destruct (32 =? c) eqn:Q; [|reflexivity]. apply N.eqb_eq in Q. subst c. specialize (H 32 (or_introl eq_refl)). discriminate. }
  rewrite X. now rewrite (IH s a b (fun c I => H c (or_intror I)) E).
Qed.
Lemma split_head ws v : ws <> [] -> (forall w, In w ws -> Plain w) -> split_two (join_with [32] ws ++ [32; 32] ++ v) = Some (join_with [32] ws, v).
Proof.
  induction ws as [|w [|x ws] IH]; [easy| |]; intros _ P.
  - cbn [join_with]. rewrite (split_word w ([32; 32] ++ v) [] v); [now rewrite app_nil_r|intros c I; now apply (P w (or_introl eq_refl))|reflexivity].
  - rewrite join2, <- !app_assoc. apply split_word; [intros c I; now apply (P w (or_introl eq_refl))|].
    specialize (IH ltac:(discriminate) (fun y I => P y (or_intror I))).
    assert (F : exists d r, join_with [32] (x :: ws) = d :: r /\ is_space d = false).
    { destruct (P x (or_intror (or_introl eq_refl))) as [N Q]. destruct x as [|d x]; [easy|].
      exists d. destruct ws as [|y ws]; [exists x|exists (x ++ [32] ++ join_with [32] (y :: ws))]; (split; [reflexivity|apply (Q d); now left]). }
    destruct F as (d & r & F & D). rewrite F in *. cbn [app] in *.
    change (split_two (32 :: d :: r ++ 32 :: 32 :: v)) with
      (if starts_with [32; 32] (32 :: d :: r ++ 32 :: 32 :: v) then Some ([], skipn 2 (32 :: d :: r ++ 32 :: 32 :: v))
       else match split_two (d :: r ++ 32 :: 32 :: v) with Some (a, b) => Some (32 :: a, b) | None => None end).
    rewrite IH. assert (X : starts_with [32; 32] (32 :: d :: r ++ 32 :: 32 :: v) = false).
    { cbn [starts_with]. destruct (32 =? d) eqn:Q; [|reflexivity]. apply N.eqb_eq in Q. subst d. discriminate. }
    rewrite X. reflexivity.
Qed.

Lemma letter_space c : is_letter c = true -> is_space c = false.
Proof.
  intros L. unfold is_letter, is_lower_az, is_upper_AZ, between in L. apply orb_true_iff in L. rewrite !andb_true_iff, !N.leb_le in L.
  destruct (is_space c) eqn:E; [|reflexivity]. exfalso. unfold is_space, between in E. rewrite !orb_true_iff, ?andb_true_iff, ?N.leb_le, ?N.eqb_eq in E. lia.
Qed.
Lemma words_from_first s : forall cur, cur <> [] -> exists w r, words_from cur s = (rev cur ++ w) :: r.
Proof.
  induction s as [|d s IH]; intros cur N; cbn [words_from].
  - destruct cur as [|x cur]; [easy|]. exists [], []. now rewrite app_nil_r.
  - destruct (is_space d).
    + destruct cur as [|x cur]; [easy|]. exists [], (words_from [] s). now rewrite app_nil_r.
    + destruct (IH (d :: cur) ltac:(discriminate)) as (w & r & E). exists (d :: w), r. rewrite E. cbn [rev]. now rewrite <- app_assoc.
Qed.
Lemma words_first c s : is_space c = false -> exists w r, words (c :: s) = (c :: w) :: r.
Proof. intros H. unfold words. cbn [words_from]. rewrite H. exact (words_from_first s [c] ltac:(discriminate)). Qed.

Definition line_of (i : item) : str :=
  match i with Entry o => $"    " ++ head_text o ++ $"  " ++ ho_help o | Group g => $"    " ++ g ++ $":" end.
Definition lines_of (i : item) : list str := match i with Entry _ => [line_of i] | Group _ => [[]; line_of i] end.
Lemma page_source l : Forall Clean l -> splitlines (print_manpage_help l) = flat_map lines_of l.
Proof.
  induction 1 as [|i l C F IH]; [reflexivity|]. unfold print_manpage_help. cbn [flat_map]. destruct i as [g|o]; cbn [manpage_item lines_of line_of].
  - destruct C as (_ & C & _). cbn [app]. change (NL :: ?x) with ([] ++ NL :: x). rewrite (splitlines_line []) by easy. cbn [app]. f_equal.
    assert (E : ($"    " ++ g ++ $":" ++ [NL]) ++ flat_map manpage_item l = ($"    " ++ g ++ $":") ++ NL :: flat_map manpage_item l) by (rewrite <- !app_assoc; reflexivity).
    rewrite E, splitlines_line; [f_equal; exact IH|]. intros c I. rewrite !in_app_iff in I. destruct I as [I|[I|I]].
    + cbn in I. decompose [or] I; try contradiction; subst c; reflexivity.
    + apply C. exact I.
    + cbn in I. destruct I as [<-|[]]. reflexivity.
  - destruct C as (N & _ & P & _ & O & _). rewrite (format_head o N).
    assert (E : ($"    " ++ head_text o ++ $"  " ++ ho_help o ++ [NL]) ++ flat_map manpage_item l = ($"    " ++ head_text o ++ $"  " ++ ho_help o) ++ NL :: flat_map manpage_item l) by (rewrite <- !app_assoc; reflexivity).
    rewrite E, splitlines_line; [cbn [app]; f_equal; exact IH|]. intros c I. rewrite !in_app_iff in I. destruct I as [I|[I|[I|I]]].
    + cbn in I. decompose [or] I; try contradiction; subst c; reflexivity.
    + exact (proj1 (plain_not _ c P I)).
    + cbn in I. decompose [or] I; try contradiction; subst c; reflexivity.
    + apply O. exact I.
Qed.

Lemma ends_rstrip s c : is_space c = false -> rstrip (s ++ [c]) = s ++ [c].
Proof. intros H. apply rstrip_p_id. rewrite rev_app_distr. cbn. exact H. Qed.
(** The line of an item has four blanks in front and none behind. *)
Lemma line_shape i : Clean i -> exists c s, line_of i = $"    " ++ c :: s /\ is_space c = false /\ rstrip (line_of i) = line_of i /\ rstrip (c :: s) = c :: s /\
  match i with
  | Entry o => c :: s = head_text o ++ [32; 32] ++ ho_help o /\ (is_header c = false /\ c <> 58 /\ c <> 36)
  | Group g => c :: s = g ++ $":" /\ is_letter c = true
  end.
Proof.
  destruct i as [g|o]; cbn [Clean line_of].
  - intros ((c & t & -> & L) & _ & _). exists c, (t ++ $":"). split; [reflexivity|].
    pose proof (letter_space c L) as S.
    split; [exact S|]. split; [|split; [|split; [reflexivity|exact L]]].
    + rewrite !app_assoc. change ($":") with [58]. now apply ends_rstrip.
    + change ($":") with [58]. now apply (ends_rstrip (c :: t)).
  - intros (_ & (w & t & H & c & r & -> & D) & P & (_ & (e & h & E & S)) & _).
    assert (X : exists s, head_text o = c :: s) by (unfold head_text; rewrite H; destruct t; cbn; eauto). destruct X as (s & X).
    exists c, (s ++ $"  " ++ ho_help o). rewrite X. split; [reflexivity|].
    assert (SC : is_space c = false) by (destruct (P (c :: r)) as [_ Q]; [rewrite H; now left|apply (Q c); now left]).
    assert (D' : is_header c = false /\ c <> 58 /\ c <> 36).
    { destruct D as (D1 & D2). split; [|exact D2]. unfold is_header, is_upper_AZ. apply not_true_iff_false in D1. rewrite D1. cbn [orb].
      apply N.eqb_neq. intros ->. discriminate. }
    split; [exact SC|].
    split; [|split; [|split; [reflexivity|exact D']]]; rewrite E.
    + rewrite !app_assoc. now apply ends_rstrip.
    + change (c :: s ++ $"  " ++ h ++ [e]) with ((c :: s) ++ $"  " ++ h ++ [e]). rewrite !app_assoc. now apply ends_rstrip.
Qed.
Lemma lstrip_line c s : is_space c = false -> lstrip ($"    " ++ c :: s) = c :: s.
Proof. intros H. cbn. now rewrite H. Qed.

Lemma page_paragraphs l : Forall Clean l -> forall current text, (current = 4%nat \/ (current = O /\ text = [])) ->
  wrap_from current text (flat_map lines_of l) = (match text with [] => [] | _ => [text] end) ++ flat_map (fun i => [[]; line_of i]) l.
Proof.
  induction 1 as [|i l C F IH]; intros current text K; [cbn; now rewrite app_nil_r|].
  destruct (line_shape i C) as (c & s & E & S & R1 & R2 & G).
  assert (LV : (length (line_of i) - length (lstrip (line_of i)))%nat = 4%nat).
  { rewrite E, lstrip_line by exact S. rewrite app_length. change (length ($"    ")) with 4%nat. lia. }
  assert (NE : match line_of i with [] => current | _ => 4%nat end = 4%nat /\ line_of i <> []).
  { rewrite E. split; [reflexivity|discriminate]. }
  destruct NE as [NE NN].
  destruct i as [g|o].
  - cbn [flat_map lines_of app]. cbn [wrap_from]. change (rstrip []) with (@nil char). cbn [length Nat.sub].
    change (lstrip []) with (@nil char). cbn [length Nat.sub]. change (is_sub [32; 32] []) with false.
    rewrite R1, LV. rewrite E, lstrip_line by exact S. rewrite <- E. destruct G as [G _].
    assert (B : is_sub [32; 32] (c :: s) = false).
    { destruct C as (_ & _ & C). rewrite G. destruct (is_sub [32; 32] (g ++ $":")) eqn:Q; [|reflexivity]. exfalso.
      apply is_sub_iff in Q as (a & b & Q). assert (X : exists b', g = a ++ [32; 32] ++ b').
      { destruct (@exists_last _ (([32; 32] : str) ++ b) ltac:(discriminate)) as (b0 & z & Z). rewrite Z in Q. rewrite app_assoc in Q. change ($":") with [58] in Q.
        apply app_inj_tail in Q as [Q1 Q2]. subst z. destruct b as [|b1 b2 _] using rev_ind.
        - change (([32; 32] : str) ++ []) with ([32] ++ [32]) in Z. apply app_inj_tail in Z as [_ Z]. discriminate.
        - rewrite app_assoc in Z. apply app_inj_tail in Z as [Z _]. exists b2. rewrite Q1, <- Z. reflexivity. }
      assert (Y : is_sub [32; 32] g = true) by (apply is_sub_iff; destruct X as (b' & X); eauto). congruence. }
    rewrite B. destruct K as [->|[-> ->]].
    + cbn [Nat.ltb Nat.leb Nat.eqb andb orb app]. f_equal. cbn [app].
      rewrite (IH 4%nat (line_of (Group g)) (or_introl eq_refl)) || idtac.
      destruct (line_of (Group g)) as [|x y] eqn:Q; [now destruct NN|]. rewrite (IH 4%nat (x :: y) (or_introl eq_refl)). reflexivity.
    + cbn [Nat.ltb Nat.leb Nat.eqb andb orb app]. destruct (line_of (Group g)) as [|x y] eqn:Q; [now destruct NN|].
      rewrite (IH 4%nat (x :: y) (or_introl eq_refl)). reflexivity.
  - cbn [flat_map lines_of app]. cbn [wrap_from]. rewrite R1, LV, NE. rewrite E at 1. rewrite lstrip_line by exact S. destruct G as [G _].
    assert (B : is_sub [32; 32] (c :: s) = true) by (apply is_sub_iff; rewrite G; eauto). rewrite B, orb_true_r. 
    f_equal. cbn [app]. f_equal. rewrite (IH 4%nat (line_of (Entry o)) (or_introl eq_refl)). destruct (line_of (Entry o)); [now destruct NN|reflexivity].
Qed.
Lemma page_wrapped l : Forall Clean l -> wrap (flat_map lines_of l) = flat_map (fun i => [[]; line_of i]) l.
Proof. intros F. unfold wrap. rewrite (page_paragraphs l F O []); [reflexivity|]. right. split; reflexivity. Qed.

Lemma process_same s t : ~ In NL s -> ~ In NL t -> words s = words t -> process s = process t.
Proof.
  assert (P : forall s, ~ In NL s -> paragraphs s = [s]).
  { clear. induction s as [|c [|d s] IH]; intros N; [reflexivity..|]. rewrite paragraphs_cons.
    destruct (c =? NL) eqn:E; [apply N.eqb_eq in E; subst c; exfalso; apply N; now left|]. cbn [andb]. now rewrite IH by (intros I; apply N; now right). }
  intros A B W. unfold process, collapse. rewrite (P s A), (P t B). cbn [map]. now rewrite W.
Qed.
Lemma line_parsed i : Clean i -> exists ls, parse_line (line_of i) = Some ls /\ [] :: ls = item_lines i.
Proof.
  intros C. destruct (line_shape i C) as (c & s & E & S & R1 & R2 & G). unfold parse_line. rewrite R1. cbv zeta.
  rewrite E, lstrip_line by exact S.
  assert (ST : strip ($"    " ++ c :: s) = c :: s).
  { unfold strip, strip_p. change (lstrip_p is_space ($"    " ++ c :: s)) with (lstrip ($"    " ++ c :: s)). rewrite lstrip_line by exact S. exact R2. }
  rewrite ST. destruct i as [g|o]; destruct G as [G D].
  - assert (X : starts_with ($"::") (c :: s) = false /\ starts_with ($"$") (c :: s) = false).
    { unfold is_letter, is_lower_az, is_upper_AZ, between in D. apply orb_true_iff in D. rewrite !andb_true_iff, !N.leb_le in D.
      split; [change ($"::") with [58; 58]|change ($"$") with [36]]; cbn [starts_with]; match goal with |- (?a =? c) && _ = false => destruct (a =? c) eqn:Q; [apply N.eqb_eq in Q; lia|reflexivity] end. }
    destruct X as [-> ->].
    assert (H : forallb is_header ($"    " ++ c :: s) = false).
    { rewrite G, !forallb_app. cbn. now rewrite !andb_false_r. }
    rewrite H, andb_false_r.
    assert (T : split_two (c :: s) = None).
    { destruct (split_two (c :: s)) as [[a b]|] eqn:Q; [|reflexivity]. exfalso. apply split_two_ok in Q.
      assert (B : is_sub [32; 32] (c :: s) = true) by (apply is_sub_iff; eauto).
      destruct C as (_ & _ & C). rewrite G in B. apply is_sub_iff in B as (a' & b' & B).
      assert (X : exists b'', g = a' ++ [32; 32] ++ b'').
      { destruct b' as [|b1 b2 _] using rev_ind.
        - change (a' ++ [32; 32] ++ []) with (a' ++ ([32] ++ [32])) in B. rewrite app_assoc in B. change ($":") with [58] in B. apply app_inj_tail in B as [_ B]. discriminate.
        - rewrite !app_assoc in B. change ($":") with [58] in B. apply app_inj_tail in B as [B _]. exists b2. rewrite B, <- app_assoc. reflexivity. }
      assert (Y : is_sub [32; 32] g = true) by (apply is_sub_iff; destruct X as (b'' & X); eauto). congruence. }
    rewrite T. eexists. split; [reflexivity|]. cbn [item_lines]. rewrite <- G. f_equal. f_equal. unfold add.
    assert (NLs : ~ In NL (c :: s)).
    { rewrite G. rewrite in_app_iff. intros [I|[I|[]]]; [|discriminate]. destruct C as (_ & C & _). destruct (C NL I) as [C1 _]. discriminate. }
    apply process_same; [|exact NLs|].
    + rewrite in_app_iff. intros [I|I]; [|exact (NLs I)]. cbn in I. decompose [or] I; try contradiction; discriminate.
    + apply words_spaces. reflexivity.
  - assert (X : starts_with ($"::") (c :: s) = false /\ starts_with ($"$") (c :: s) = false).
    { destruct D as (_ & D1 & D2). split; [change ($"::") with [58; 58]|change ($"$") with [36]]; cbn [starts_with];
        match goal with |- (?a =? c) && _ = false => destruct (a =? c) eqn:Q; [apply N.eqb_eq in Q; congruence|reflexivity] end. }
    destruct X as [-> ->].
    assert (H : forallb is_header ($"    " ++ c :: s) = false) by (rewrite forallb_app; cbn [forallb]; now rewrite (proj1 D), andb_false_r).
    rewrite H, andb_false_r.
    assert (T : split_two (c :: s) = Some (head_text o, ho_help o)).
    { rewrite G. destruct C as (_ & (w & t & HD & _) & P & _). apply split_head; [rewrite HD; discriminate|exact P]. }
    rewrite T. eexists. split; [reflexivity|]. reflexivity.
Qed.
Lemma manual_lines l : Forall Clean l -> forall text fuel,
  parse_lines text (S fuel) (splitlines (print_manpage_help l)) = inl (flat_map item_lines l).
Proof.
  intros F text fuel. rewrite (page_source l F). cbn [parse_lines]. rewrite (page_wrapped l F).
  induction F as [|i l C F IH]; [reflexivity|]. cbn [flat_map app fold_right]. rewrite IH.
  destruct (line_parsed i C) as (ls & -> & E). change (parse_line []) with (Some [@nil char]). cbv iota. rewrite <- E. reflexivity.
Qed.

Lemma help_readable s : OneLine s -> ~ begins_control s -> Readable s.
Proof. intros O B. apply readable_line; [intros I; now destruct (O _ I)|intros I; destruct (O _ I); discriminate|exact B]. Qed.
Lemma item_shown i : Clean i -> flat_map page_words (item_lines i) = item_words i.
Proof.
  intros C. destruct i as [g|o]; cbn [item_lines item_words flat_map]; change (page_words []) with (@nil str); cbn [app].
  - destruct C as ((c & t & -> & L) & O & _). rewrite app_nil_r. apply process_words. apply readable_line.
    + rewrite in_app_iff. intros [I|[I|[]]]; [now destruct (O _ I)|discriminate].
    + rewrite in_app_iff. intros [I|[I|[]]]; [destruct (O _ I); discriminate|discriminate].
    + intros (w & r & W & K). cbn [app] in W. destruct (words_first c (t ++ $":") (letter_space c L)) as (w' & r' & W'). rewrite W' in W.
      injection W as <- _. cbn in K. unfold is_letter, is_lower_az, is_upper_AZ, between in L. apply orb_true_iff in L. rewrite !andb_true_iff, !N.leb_le in L.
      apply orb_true_iff in K. rewrite !N.eqb_eq in K. lia.
  - destruct C as (N & HD & P & T & O & B). rewrite app_nil_r.
    f_equal.
    + apply definition_shown; intros I; apply (plain_not _ _ P) in I as (I1 & I2 & I3); [discriminate I1|easy..].
    + apply process_words. now apply help_readable.
Qed.
Lemma manual_words l : Forall Clean l -> page_words (page_text (flat_map item_lines l)) = flat_map item_words l.
Proof.
  intros F. rewrite page_lines. induction F as [|i l C F IH]; [reflexivity|]. cbn [flat_map]. rewrite flat_map_app, IH. now rewrite (item_shown i C).
Qed.

(** ** The options of ff *)
Definition plain_b (w : str) : bool := match w with [] => false | _ => forallb (fun c => negb (is_space c || is_sep c || (c =? 34) || (c =? 92))) w end.
Definition one_line_b (s : str) : bool := forallb (fun c => negb (is_sep c || (c =? 92))) s.
Definition first_b (p : char -> bool) (s : str) : bool := match s with c :: _ => p c | [] => false end.
Definition clean_b (i : item) : bool :=
  match i with
  | Entry o =>
      (match ho_strings o with [] => false | _ => true end) &&
      first_b (fun c => negb (between 65 90 c || (c =? 58) || (c =? 36))) (match heading o with w :: _ => w | [] => [] end) &&
      forallb plain_b (heading o) && first_b (fun c => negb (is_space c)) (ho_help o) && first_b (fun c => negb (is_space c)) (rev (ho_help o)) &&
      one_line_b (ho_help o) && negb (match words (ho_help o) with w :: _ => control w | [] => false end)
  | Group g => first_b is_letter g && one_line_b g && negb (is_sub [32; 32] g)
  end.
Lemma one_line_ok s : one_line_b s = true -> OneLine s.
Proof.
  intros H c I. unfold one_line_b in H. rewrite forallb_forall in H. specialize (H c I). rewrite negb_true_iff, orb_false_iff, N.eqb_neq in H. exact H.
Qed.
Lemma first_ok p s : first_b p s = true -> exists c t, s = c :: t /\ p c = true.
Proof. destruct s as [|c t]; [discriminate|]. cbn. eauto. Qed.
Lemma clean_ok i : clean_b i = true -> Clean i.
Proof.
  destruct i as [g|o]; cbn [clean_b Clean]; rewrite !andb_true_iff, negb_true_iff.
  - intros ((H1 & H2) & H3). apply first_ok in H1 as (c & t & H1). split; [eauto|]. split; [now apply one_line_ok|exact H3].
  - intros ((((((H1 & H2) & H3) & H4) & H5) & H6) & H7). split; [destruct (ho_strings o); [discriminate H1|discriminate]|]. split; [|split; [|split; [|split]]].
    + destruct (heading o) as [|w t]; [discriminate H2|]. apply first_ok in H2 as (c & r & -> & H2). rewrite negb_true_iff, !orb_false_iff, !N.eqb_neq, <- not_true_iff_false in H2. exists (c :: r), t. split; [reflexivity|]. exists c, r. tauto.
    + intros w I. rewrite forallb_forall in H3. specialize (H3 w I). unfold plain_b in H3. destruct w as [|x w]; [discriminate|]. split; [discriminate|].
      intros c J. rewrite forallb_forall in H3. specialize (H3 c J). rewrite negb_true_iff, !orb_false_iff, !N.eqb_neq in H3. tauto.
    + split.
      * apply first_ok in H4 as (c & t & E & Q). apply negb_true_iff in Q. eauto.
      * apply first_ok in H5 as (c & t & E & Q). apply negb_true_iff in Q. exists c, (rev t). split; [|exact Q].
        apply (f_equal (@rev char)) in E. rewrite rev_involutive in E. exact E.
    + now apply one_line_ok.
    + intros (w & r & W & K). rewrite W in H7. congruence.
Qed.
Lemma table_clean debug : Forall Clean (help_output debug).
Proof.
  apply Forall_forall. intros i I. apply clean_ok. revert i I. apply forallb_forall. destruct debug; vm_compute; reflexivity.
Qed.
Lemma clean_begins i : Clean i -> Begins i.
Proof. destruct i as [g|o]; [easy|]. intros (N & _ & _ & ((c & t & E & S) & _) & _). split; [exact N|]. now rewrite E. Qed.
Lemma table_begins debug : Forall Begins (help_output debug).
Proof. eapply Forall_impl; [exact clean_begins|apply table_clean]. Qed.
(** Every option of the parser is in the help text, in the same order. *)
Definition entries (l : list item) : list hopt := flat_map (fun i => match i with Entry o => [o] | Group _ => [] end) l.
Lemma table_options debug max_cpu cache color :
  map (fun o => (ho_strings o, ho_action o)) (entries (help_output debug)) =
  map (fun o => (o_strings o, o_action o)) (create_parser debug max_cpu cache color).
Proof. destruct debug; vm_compute; reflexivity. Qed.
(** No heading fills its column. *)
Lemma table_gap debug o : In o (entries (help_output debug)) -> length (head_text o) <> 25%nat.
Proof.
  intros I. apply Nat.eqb_neq. apply negb_true_iff. revert o I. apply forallb_forall. destruct debug; vm_compute; reflexivity.
Qed.
(** An include puts its lines into the page. *)
Lemma include_in text fuel lines p name l x out : In p (wrap lines) -> Include p name -> text name = Some l -> parse_lines text fuel l = inl x ->
  parse_lines text (S fuel) lines = inl out -> exists a b, out = a ++ x ++ b.
Proof.
  intros I N T X. cbn [parse_lines]. revert out. induction (wrap lines) as [|q ps IH]; intros out H; [destruct I|].
  cbn [fold_right] in H. set (first := match parse_line q with Some _ => _ | None => _ end) in H.
  set (rest := fold_right _ _ ps) in H. change rest with (fold_right (fun line rest =>
        match match parse_line line with
              | Some l => inl l
              | None =>
                  match text (skipn 2 (lstrip (rstrip line))) with
                  | Some l => parse_lines text fuel l
                  | None => inr NoInclude
                  end
              end with
        | inl l => match rest with inl r => inl (l ++ r) | e => e end
        | inr e => inr e
        end) (inl []) ps) in H. fold rest in H.
  destruct first as [f|e] eqn:F; [|discriminate]. destruct rest as [r|e] eqn:R; [|discriminate]. injection H as <-.
  destruct I as [->|I].
  - pose proof (include_strip p name N) as S. unfold first, parse_line in F. cbv zeta in F. rewrite S in F.
    assert (M : starts_with ($"::") ($"::" ++ name) = true) by (apply starts_with_iff; eauto). rewrite M in F.
    change (skipn 2 ($"::" ++ name)) with name in F. rewrite T, X in F. injection F as <-. exists [], r. reflexivity.
  - destruct (IH I r) as (a & b & ->); [exact R|]. exists (f ++ a), b. now rewrite <- !app_assoc.
Qed.
Lemma page_options debug other fuel lines p out : In p (wrap lines) -> Include p ($"help") ->
  parse_lines (include_text debug other) (S (S fuel)) lines = inl out ->
  exists a b, out = a ++ flat_map item_lines (help_output debug) ++ b.
Proof.
  intros I N. apply (include_in _ (S fuel) lines p ($"help") (splitlines (print_manpage_help (help_output debug)))); [exact I|exact N|reflexivity|].
  apply manual_lines, table_clean.
Qed.
Lemma page_usage debug other fuel lines p out : In p (wrap lines) -> Include p ($"usage") ->
  parse_lines (include_text debug other) (S (S fuel)) lines = inl out ->
  exists a b, out = a ++ [process usage] ++ b.
Proof.
  intros I N. apply (include_in _ (S fuel) lines p ($"usage") [usage]); [exact I|exact N|reflexivity|]. reflexivity.
Qed.
