(** The lists of time patterns and exit codes *)
From Coq Require Import List NArith ZArith Bool Lia.
From Verif Require StartModel WalkModel.
From Verif Require Import Py ArgsModel TimeModel UsageModel ListsModel HelpModel HelpSpec UsageSpec ListsSpec UsageProofs HelpProofs HelpPageProofs ManualProofs.
Import ListNotations.
Open Scope N_scope.

Lemma directive_iff c : is_directive c = true <-> Directive c.
Proof.
  unfold is_directive. split.
  - intros H. apply has_char_iff in H. cbn in H. repeat (destruct H as [<-|H]; [constructor|]). destruct H.
  - intros []; reflexivity.
Qed.
Lemma doubled_pattern f : Pattern f (doubled f).
Proof.
  enough (X : forall n f, (length f <= n)%nat -> Pattern f (doubled f)) by (apply (X (length f)); lia).
  clear f. induction n as [|n IH]; intros f L; (destruct f as [|c f]; [constructor|]); cbn [length] in L; [lia|].
  destruct f as [|d f]; [cbn; constructor; [discriminate|constructor]|]. cbn [length] in L.
  change (doubled (c :: d :: f)) with (if (c =? 37) && is_directive d then d :: d :: doubled f else c :: doubled (d :: f)).
  destruct ((c =? 37) && is_directive d) eqn:E.
  - apply andb_true_iff in E as [E1 E2]. apply N.eqb_eq in E1. subst c. constructor; [now apply directive_iff|]. apply IH. lia.
  - constructor; [|apply IH; cbn [length]; lia]. intros -> d' t Q. injection Q as <- _. intros D. apply directive_iff in D. rewrite D in E. discriminate.
Qed.
Lemma pattern_unique f : forall s t, Pattern f s -> Pattern f t -> s = t.
Proof.
  intros s t P. revert t. induction P as [|d f s D P IH|c f s N P IH]; intros t Q; inversion Q; subst; [reflexivity|..].
  - now rewrite (IH s0).
  - exfalso. match goal with X : 37 = 37 -> _ |- _ => exact (X eq_refl d f eq_refl D) end.
  - exfalso. match goal with X : Directive ?e |- _ => exact (N eq_refl e _ eq_refl X) end.
  - now rewrite (IH s0).
Qed.

(** ** Exit codes *)
Lemma rstrip_again s : rstrip (rstrip s) = rstrip s.
Proof.
  unfold rstrip, rstrip_p. rewrite rev_involutive. f_equal. generalize (rev s). intros r. induction r as [|c r IH]; [reflexivity|].
  cbn [lstrip_p]. destruct (is_space c) eqn:E; [exact IH|]. cbn [lstrip_p]. now rewrite E.
Qed.
Lemma wrap_from_rstrip ls : forall current text, wrap_from current text (map rstrip ls) = wrap_from current text ls.
Proof.
  induction ls as [|l ls IH]; intros current text; [reflexivity|]. cbn [map wrap_from]. rewrite rstrip_again, !IH.
  destruct text; reflexivity.
Qed.
Lemma parse_rstrip text fuel a b : map rstrip a = map rstrip b -> parse_lines text fuel a = parse_lines text fuel b.
Proof.
  intros H. destruct fuel as [|fuel]; [reflexivity|]. cbn [parse_lines]. unfold wrap.
  now rewrite <- (wrap_from_rstrip a), H, (wrap_from_rstrip b).
Qed.
Lemma rstrip_pad s b : forallb is_space b = true -> rstrip (s ++ b) = rstrip s.
Proof.
  intros H. unfold rstrip, rstrip_p. rewrite rev_app_distr. f_equal.
  assert (R : forallb is_space (rev b) = true) by (apply forallb_forall; intros x I; rewrite forallb_forall in H; apply H; now apply in_rev).
  revert R. generalize (rev b), (rev s). intros l r. induction l as [|c l IH]; [reflexivity|]. cbn. intros Q. apply andb_true_iff in Q as [-> Q]. now apply IH.
Qed.
Lemma digits_char z c : In c (str_of_Z z) -> c = 45 \/ is_d c = true.
Proof.
  assert (D : forall n, In c (str_of_N n) -> is_d c = true) by (intros n I; pose proof (str_of_N_digits n) as F; rewrite forallb_forall in F; now apply F).
  destruct z as [|p|p]; cbn [str_of_Z]; [intros [<-|[]]; now right|intros I; right; eapply D; exact I|intros [<-|I]; [now left|right; eapply D; exact I]].
Qed.
Lemma code_nonnil z : str_of_Z z <> [].
Proof. destruct z; [discriminate|apply uint_str_nonnil|discriminate]. Qed.
Lemma code_plain z : Plain (str_of_Z z).
Proof.
  split; [apply code_nonnil|]. intros c I. apply digits_char in I as [->|I]; [repeat split; discriminate|].
  unfold is_d, between in I. apply andb_true_iff in I as [I1 I2]. apply N.leb_le in I1, I2. unfold is_space, is_sep, between.
  repeat split; try lia; apply not_true_iff_false; intros Q; rewrite !orb_true_iff, ?andb_true_iff, ?N.leb_le, ?N.eqb_eq in Q; lia.
Qed.
Lemma exit_clean z s : Meaning s -> Clean (exit_item (z, s)).
Proof.
  intros (T & O & B). cbn [exit_item Clean fst snd ho_strings ho_help]. split; [discriminate|]. split; [|split; [|split; [exact T|split; [exact O|exact B]]]].
  - exists (str_of_Z z), []. split; [reflexivity|]. pose proof (code_nonnil z) as N. destruct (str_of_Z z) as [|c r] eqn:E; [easy|].
    exists c, r. split; [reflexivity|]. assert (I : In c (str_of_Z z)) by (rewrite E; now left). apply digits_char in I as [->|I]; [repeat split; discriminate|].
    unfold is_d, between in *. apply andb_true_iff in I as [I1 I2]. apply N.leb_le in I1, I2. rewrite andb_true_iff, !N.leb_le. repeat split; lia.
  - intros w [<-|[]]. apply code_plain.
Qed.
Lemma exit_page l m : Forall2 (fun x y => fst x = fst y /\ Padded (snd y) (snd x) /\ Meaning (snd y)) l m -> forall text fuel,
  parse_lines text (S fuel) (exit_lines l) = inl (flat_map item_lines (map exit_item m)) /\
  page_words (page_text (flat_map item_lines (map exit_item m))) = flat_map item_words (map exit_item m).
Proof.
  intros F text fuel. assert (C : Forall Clean (map exit_item m)).
  { clear text fuel. induction F as [|x [z s] l m (_ & _ & M) F IH]; [constructor|]. constructor; [now apply exit_clean|exact IH]. }
  split; [|now apply manual_words]. rewrite <- (manual_lines _ C text fuel), (page_source _ C). apply parse_rstrip. clear C.
  induction F as [|[z s] [z' s'] l m (E & (b & P & B) & M) F IH]; [reflexivity|]. cbn [fst snd] in *. subst z' s.
  cbn [exit_lines map flat_map exit_item lines_of line_of app fst snd]. f_equal; [|exact IH].
  cbn [ho_help head_text heading ho_action ho_metavar ho_strings names]. unfold head_text. cbn [heading ho_action ho_metavar ho_strings names join_with].
  rewrite !app_assoc. now apply rstrip_pad.
Qed.
Lemma meaning_check s : first_b (fun c => negb (is_space c)) s && first_b (fun c => negb (is_space c)) (rev s) && one_line_b s &&
  negb (match words s with w :: _ => control w | [] => false end) = true -> Meaning s.
Proof.
  rewrite !andb_true_iff, negb_true_iff. intros (((H4 & H5) & H6) & H7). split; [split|split].
  - apply first_ok in H4 as (c & t & E & Q). apply negb_true_iff in Q. eauto.
  - apply first_ok in H5 as (c & t & E & Q). apply negb_true_iff in Q. exists c, (rev t). split; [|exact Q].
    apply (f_equal (@rev char)) in E. rewrite rev_involutive in E. exact E.
  - now apply one_line_ok.
  - intros (w & r & W & K). rewrite W in H7. congruence.
Qed.
Definition meanings : list (Z * str) := map (fun x => (fst x, rstrip (snd x))) exceptions.
Lemma exceptions_ok : Forall2 (fun x y => fst x = fst y /\ Padded (snd y) (snd x) /\ Meaning (snd y)) exceptions meanings.
Proof.
  unfold meanings, exceptions. cbn [map fst snd].
  repeat (constructor; [split; [reflexivity|split; [exists ([NL] ++ $"    "); split; vm_compute; reflexivity|apply meaning_check; vm_compute; reflexivity]]|]). constructor.
Qed.
Lemma codes_listed e c : StartModel.exitcode e = Some c -> In c (map fst exceptions).
Proof. destruct e; try discriminate; intros H; injection H as <-; cbn; tauto. Qed.

(** ** Time patterns *)
Definition shown_time (f : str) : str := $"``" ++ doubled f ++ $"``".
Lemma showable_iff f : Showable f <-> OneLine (doubled f) /\ is_sub [32; 32] (doubled f) = false.
Proof.
  split.
  - intros H. destruct (H _ (doubled_pattern f)) as [O N]. split; [exact O|]. apply not_true_iff_false. intros Q.
    apply is_sub_iff in Q as (a & b & Q). exact (N a b Q).
  - intros [O N] s P. rewrite (pattern_unique f _ _ P (doubled_pattern f)). split; [exact O|]. intros a b Q.
    assert (X : is_sub [32; 32] (doubled f) = true) by (apply is_sub_iff; eauto). congruence.
Qed.
Lemma in_app_sub (a b : str) : is_sub [32; 32] a = false -> ~ In 32 b -> is_sub [32; 32] (a ++ b) = false.
Proof.
  intros H N. apply not_true_iff_false. intros Q. revert H Q. induction a as [|c a IH]; intros H Q.
  - apply is_sub_iff in Q as (x & y & Q). apply N. cbn [app] in Q. rewrite Q, in_app_iff. right. now left.
  - cbn [app is_sub] in *. apply orb_false_iff in H as [H1 H2]. apply orb_true_iff in Q as [Q|Q]; [|now apply IH].
    destruct a as [|d a]; [|cbn [app starts_with] in *; congruence]. destruct b as [|d b]; [cbn [app] in Q; congruence|]. cbn [app starts_with] in *.
    destruct (32 =? c); [|discriminate]. cbn [andb] in *. destruct (32 =? d) eqn:E; [|discriminate]. apply N.eqb_eq in E. subst d. apply N. now left.
Qed.
Lemma time_sub f : Showable f -> is_sub [32; 32] (shown_time f) = false.
Proof.
  intros S. apply showable_iff in S as [_ S]. unfold shown_time. change ($"``" ++ doubled f ++ $"``") with (96 :: 96 :: (doubled f ++ [96; 96])).
  cbn [is_sub starts_with]. change (32 =? 96) with false. cbn [andb orb]. apply in_app_sub; [exact S|]. cbn. intros [H|[H|[]]]; discriminate.
Qed.
Lemma time_line f : rstrip ($"    " ++ shown_time f) = $"    " ++ shown_time f /\ lstrip ($"    " ++ shown_time f) = shown_time f /\ strip ($"    " ++ shown_time f) = shown_time f.
Proof.
  assert (R : forall x, rstrip (x ++ shown_time f) = x ++ shown_time f).
  { intros x. unfold shown_time. change ($"``") with ([96] ++ [96]) at 2 4. rewrite !app_assoc. now apply ends_rstrip. }
  split; [apply R|]. split; [reflexivity|]. exact (R []).
Qed.
Lemma time_wrap l : Forall Showable l -> wrap_from 4 [] (time_lines l) = flat_map (fun f => [$"    " ++ shown_time f; []]) l.
Proof.
  induction 1 as [|f l S F IH]; [reflexivity|]. cbn [time_lines flat_map app]. destruct (time_line f) as (R & L & _).
  change ($"    ``" ++ doubled f ++ $"``") with ($"    " ++ shown_time f). cbn [wrap_from]. rewrite R, L, (time_sub f S).
  rewrite app_length. change (length ($"    ")) with 4%nat. replace (4 + length (shown_time f) - length (shown_time f))%nat with 4%nat by lia.
  cbn [Nat.ltb Nat.leb Nat.eqb andb orb]. change ($"    " ++ shown_time f) with (32 :: ($"   " ++ shown_time f)). cbv iota.
  change (rstrip []) with (@nil char). cbn [lstrip lstrip_p length Nat.sub Nat.ltb Nat.leb orb app]. f_equal. f_equal. exact IH.
Qed.
Lemma time_wrap0 f l : Forall Showable (f :: l) -> wrap (time_lines (f :: l)) = [] :: flat_map (fun f => [$"    " ++ shown_time f; []]) (f :: l).
Proof.
  intros F. inversion F as [|? ? S F']; subst. unfold wrap. cbn [time_lines flat_map app]. destruct (time_line f) as (R & L & _).
  change ($"    ``" ++ doubled f ++ $"``") with ($"    " ++ shown_time f). cbn [wrap_from]. rewrite R, L, (time_sub f S).
  rewrite app_length. change (length ($"    ")) with 4%nat. replace (4 + length (shown_time f) - length (shown_time f))%nat with 4%nat by lia.
  cbn [Nat.ltb Nat.leb Nat.eqb andb orb]. change ($"    " ++ shown_time f) with (32 :: ($"   " ++ shown_time f)). cbv iota.
  change (rstrip []) with (@nil char). cbn [lstrip lstrip_p length Nat.sub Nat.ltb Nat.leb orb app]. f_equal. f_equal. f_equal. exact (time_wrap l F').
Qed.
Lemma time_newline f : Showable f -> ~ In NL (shown_time f) /\ ~ In 92 (shown_time f).
Proof.
  intros S. apply showable_iff in S as [O _]. split; intros I; unfold shown_time in I; rewrite !in_app_iff in I; cbn in I;
    (destruct I as [[I|[I|[]]]|[I|[I|[I|[]]]]]; try discriminate; destruct (O _ I) as [O1 O2]; [discriminate O1|]) || (destruct I as [[I|[I|[]]]|[I|[I|[I|[]]]]]; try discriminate; now destruct (O _ I)).
Qed.
Lemma time_parsed f : Showable f -> parse_line ($"    " ++ shown_time f) = Some [process (shown_time f)].
Proof.
  intros S. destruct (time_line f) as (R & L & ST). unfold parse_line. rewrite R. cbv zeta. rewrite L, ST.
  change (starts_with ($"::") (shown_time f)) with false. change (starts_with ($"$") (shown_time f)) with false.
  assert (H : forallb is_header ($"    " ++ shown_time f) = false) by reflexivity. rewrite H, andb_false_r.
  assert (T : split_two (shown_time f) = None).
  { destruct (split_two (shown_time f)) as [[a b]|] eqn:Q; [|reflexivity]. exfalso. apply split_two_ok in Q.
    pose proof (time_sub f S) as B. assert (B' : is_sub [32; 32] (shown_time f) = true) by (apply is_sub_iff; eauto). congruence. }
  rewrite T. f_equal. f_equal. unfold add. destruct (time_newline f S) as [N _]. apply process_same; [|exact N|apply words_spaces; reflexivity].
  intros I. rewrite in_app_iff in I. destruct I as [I|I]; [cbn in I; decompose [or] I; try contradiction; discriminate|exact (N I)].
Qed.
Lemma time_page f l : Forall Showable (f :: l) -> forall text fuel,
  parse_lines text (S fuel) (time_lines (f :: l)) = inl ([] :: flat_map (fun f => [process (shown_time f); []]) (f :: l)).
Proof.
  intros F text fuel. cbn [parse_lines]. rewrite (time_wrap0 f l F). revert F. generalize (f :: l). clear f l. intros l F.
  cbn [fold_right]. change (parse_line []) with (Some [@nil char]). cbv iota.
  match goal with |- match ?x with _ => _ end = _ => assert (X : x = inl (flat_map (fun f => [process (shown_time f); []]) l)) end.
  { induction F as [|f l S F IH]; [reflexivity|]. cbn [flat_map app fold_right]. rewrite IH, (time_parsed f S). reflexivity. }
  rewrite X. reflexivity.
Qed.
Lemma time_words l : Forall Showable l ->
  page_words (page_text ([] :: flat_map (fun f => [process (shown_time f); []]) l)) = flat_map (fun f => text_words (doubled f)) l.
Proof.
  intros F. rewrite page_lines. cbn [flat_map]. change (page_words []) with (@nil str). cbn [app]. induction F as [|f l S F IH]; [reflexivity|].
  cbn [flat_map app]. rewrite flat_map_app || idtac. rewrite IH. change (page_words []) with (@nil str). cbn [app]. f_equal.
  destruct (time_newline f S) as [N1 N2]. rewrite process_words.
  - unfold text_words. f_equal. unfold shown_time, unticked. rewrite !filter_app. cbn. now rewrite app_nil_r.
  - apply readable_line; [exact N2|exact N1|]. intros (w & r & W & K). destruct (words_first 96 (96 :: doubled f ++ $"``") eq_refl) as (w' & r' & W').
    pose proof (eq_trans (eq_sym W) W') as E. injection E as -> _. discriminate K.
Qed.
Lemma formats_showable : Forall Showable (map snd time_formats).
Proof.
  apply Forall_forall. intros f I. assert (X : one_line_b (doubled f) && negb (is_sub [32; 32] (doubled f)) = true).
  { revert f I. apply forallb_forall. vm_compute. reflexivity. }
  apply andb_true_iff in X as [X1 X2]. apply negb_true_iff in X2. apply showable_iff. split; [now apply one_line_ok|exact X2].
Qed.
(** Years have four digits. *)
Lemma year_rejected timestamp now clock : parse_time timestamp now clock ($"24-01-31") = Err ValueError.
Proof. vm_compute. reflexivity. Qed.
Lemma status_listed A m fail (s : WalkModel.state A) : WalkModel.exit_status A m fail s = 0%Z \/ In (WalkModel.exit_status A m fail s) (map fst exceptions).
Proof.
  unfold WalkModel.exit_status. repeat match goal with |- context [if ?b then _ else _] => destruct b end; cbn; tauto.
Qed.
Lemma page_exit_codes debug fuel lines p out : In p (wrap lines) -> Include p ($"exit_codes") ->
  parse_lines (include debug) (S (S fuel)) lines = inl out -> exists a b, out = a ++ flat_map item_lines (map exit_item meanings) ++ b.
Proof.
  intros I N. apply (include_in _ (S fuel) lines p ($"exit_codes") (exit_lines exceptions)); [exact I|exact N|reflexivity|].
  apply exit_page, exceptions_ok.
Qed.
Lemma include_others debug name : ~ In name [$"help"; $"usage"; $"time_patterns"; $"exit_codes"] -> include debug name = None.
Proof.
  intros H. unfold include, include_text. repeat match goal with |- context [str_eqb name ?x] => destruct (str_eqb name x) eqn:?E end; try reflexivity;
  exfalso; apply H; repeat match goal with X : str_eqb _ _ = true |- _ => apply str_eqb_eq in X; rewrite X end; cbn; tauto.
Qed.
Lemma codes_once : NoDup (map fst exceptions) /\ ~ In 0%Z (map fst exceptions).
Proof. split; [cbn; repeat (constructor; [cbn; intuition discriminate|]); constructor|cbn; intuition discriminate]. Qed.
Lemma patterns_doubled l : forall m, Forall2 Pattern l m -> m = map doubled l.
Proof. induction 1 as [|f s l m P F IH]; [reflexivity|]. cbn [map]. f_equal; [|exact IH]. exact (pattern_unique f _ _ P (doubled_pattern f)). Qed.
Lemma time_patterns_shown f l : Forall Showable (f :: l) -> forall text fuel, exists out,
  parse_lines text (S fuel) (time_lines (f :: l)) = inl out /\
  forall patterns, Forall2 Pattern (f :: l) patterns -> page_words (page_text out) = flat_map text_words patterns.
Proof.
  intros F text fuel. eexists. split; [exact (time_page f l F text fuel)|]. intros m P. apply patterns_doubled in P. subst m.
  rewrite (time_words (f :: l) F). generalize (f :: l). clear. intros l. induction l as [|f l IH]; [reflexivity|]. cbn [map flat_map]. now rewrite IH.
Qed.
Lemma include_names debug name : include debug name <> None <-> In name [$"help"; $"usage"; $"time_patterns"; $"exit_codes"].
Proof.
  split.
  - intros H. destruct (in_dec str_eq_dec name [$"help"; $"usage"; $"time_patterns"; $"exit_codes"]) as [I|I]; [exact I|]. exfalso. now apply H, include_others.
  - intros [<-|[<-|[<-|[<-|[]]]]]; discriminate.
Qed.
Lemma page_time_patterns debug fuel lines p out patterns : In p (wrap lines) -> Include p ($"time_patterns") ->
  parse_lines (include debug) (S (S fuel)) lines = inl out -> Forall2 Pattern (map snd time_formats) patterns ->
  exists a x b, out = a ++ x ++ b /\ page_words (page_text x) = flat_map text_words patterns.
Proof.
  intros I N H P. pose proof formats_showable as F. destruct (time_patterns_shown _ _ F (include debug) fuel) as (x & X & W).
  destruct (include_in (include debug) (S fuel) lines p ($"time_patterns") (time_lines (map snd time_formats))
    x out I N) as (a & b & E); [reflexivity|exact X|exact H|]. exists a, x, b. split; [exact E|now apply W].
Qed.
