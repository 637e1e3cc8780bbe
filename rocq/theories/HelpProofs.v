(** Proofs about the help pages. *)
From Coq Require Import List NArith Bool Lia Arith.
From Verif Require Import Py ArgsValueProofs HelpModel HelpSpec.
Import ListNotations.
Open Scope N_scope.

(** Words *)
Lemma words_from_app a : forall cur c b, is_space c = true ->
  words_from cur (a ++ c :: b) = words_from cur a ++ words b.
Proof.
  induction a as [|x a IH]; intros cur c b S; cbn [app words_from].
  - rewrite S. destruct cur; reflexivity.
  - destruct (is_space x); [destruct cur; cbn [app]; now rewrite IH by exact S|now apply IH].
Qed.
Lemma words_app a c b : is_space c = true -> words (a ++ c :: b) = words a ++ words b.
Proof. apply words_from_app. Qed.
Lemma words_space c b : is_space c = true -> words (c :: b) = words b.
Proof. intros S. exact (words_app [] c b S). Qed.
Lemma words_spaces l : forall b, forallb is_space l = true -> words (l ++ b) = words b.
Proof.
  induction l as [|c l IH]; intros b H; [reflexivity|]. cbn [forallb app] in *. apply andb_true_iff in H as [H1 H2].
  rewrite words_space by exact H1. now apply IH.
Qed.
Lemma words_blank l : forallb is_space l = true -> words l = [].
Proof. intros H. rewrite <- (app_nil_r l). now rewrite words_spaces. Qed.
Lemma words_trailing a l : forallb is_space l = true -> words (a ++ l) = words a.
Proof.
  destruct l as [|c l]; [now rewrite app_nil_r|]. cbn [forallb]. intros H. apply andb_true_iff in H as [H1 H2].
  rewrite words_app by exact H1. rewrite (words_blank l H2). apply app_nil_r.
Qed.
Definition word (w : str) : Prop := w <> [] /\ forallb (fun c => negb (is_space c)) w = true.
Lemma words_from_one u : forall cur, forallb (fun c => negb (is_space c)) u = true ->
  words_from cur u = match rev u ++ cur with [] => [] | x => [rev x] end.
Proof.
  induction u as [|c u IH]; intros cur H; cbn [words_from rev app]; [destruct cur; reflexivity|].
  cbn [forallb] in H. apply andb_true_iff in H as [H1 H2]. apply negb_true_iff in H1. rewrite H1.
  rewrite (IH (c :: cur) H2). now rewrite <- app_assoc.
Qed.
Lemma words_one u : forallb (fun c => negb (is_space c)) u = true -> words u = match u with [] => [] | _ => [u] end.
Proof.
  intros H. unfold words. rewrite (words_from_one u [] H), app_nil_r. destruct u as [|c u]; [reflexivity|].
  destruct (rev (c :: u)) eqn:E; [now apply (f_equal (@length N)) in E; rewrite rev_length in E|].
  rewrite <- E. now rewrite rev_involutive.
Qed.
Lemma words_word w : word w -> words w = [w].
Proof. intros [N H]. rewrite words_one by exact H. destruct w; [easy|reflexivity]. Qed.
Lemma words_from_are s : forall cur, forallb (fun c => negb (is_space c)) cur = true ->
  forall w, In w (words_from cur s) -> word w.
Proof.
  induction s as [|c s IH]; intros cur H w; cbn [words_from].
  - destruct cur as [|x cur]; [easy|]. intros [<-|[]]. split; [|now rewrite forallb_rev].
    intros E. apply (f_equal (@length N)) in E. now rewrite rev_length in E.
  - destruct (is_space c) eqn:S.
    + destruct cur as [|x cur]; [now apply IH|]. intros [<-|X]; [|now apply (IH [])].
      split; [|now rewrite forallb_rev]. intros E. apply (f_equal (@length N)) in E. now rewrite rev_length in E.
    + apply IH. cbn [forallb]. now rewrite S.
Qed.
Lemma words_are s w : In w (words s) -> word w.
Proof. now apply (words_from_are s []). Qed.
Lemma words_join l : (forall w, In w l -> word w) -> words (join_with [32] l) = l.
Proof.
  induction l as [|x [|y l] IH]; intros H; [reflexivity|apply words_word, H; now left|].
  change (join_with [32] (x :: y :: l)) with (x ++ 32 :: join_with [32] (y :: l)).
  rewrite words_app by reflexivity. rewrite words_word by (apply H; now left). rewrite IH; [reflexivity|].
  intros w X. apply H. now right.
Qed.
Lemma words_again s : words (join_with [32] (words s)) = words s.
Proof. apply words_join, words_are. Qed.

(** All characters but the spaces are in the words. *)
Lemma words_from_chars s : forall cur, forallb (fun c => negb (is_space c)) cur = true ->
  concat (words_from cur s) = rev cur ++ filter (fun c => negb (is_space c)) s.
Proof.
  induction s as [|c s IH]; intros cur H; cbn [words_from filter].
  - destruct cur; cbn [concat]; [reflexivity|now rewrite !app_nil_r].
  - destruct (is_space c) eqn:S; cbn [negb].
    + destruct cur as [|x cur]; [now rewrite IH|]. cbn [concat]. now rewrite IH.
    + rewrite IH; [cbn [rev]; now rewrite <- app_assoc|cbn [forallb]; now rewrite S].
Qed.
Lemma words_chars s : concat (words s) = filter (fun c => negb (is_space c)) s.
Proof. now apply (words_from_chars s []). Qed.

(** lstrip, rstrip and strip *)
Lemma words_lstrip s : words (lstrip s) = words s.
Proof.
  destruct (lstrip_split is_space s) as (l & t & E & Hl & E2 & _). unfold lstrip. rewrite E2, E at 1.
  symmetry. now apply words_spaces.
Qed.
Lemma rstrip_split s : exists l, s = rstrip s ++ l /\ forallb is_space l = true.
Proof.
  unfold rstrip, rstrip_p. destruct (lstrip_split is_space (rev s)) as (l & t & E & Hl & E2 & _).
  exists (rev l). rewrite E2. split; [|now rewrite forallb_rev].
  rewrite <- rev_app_distr. exact (eq_trans (eq_sym (rev_involutive s)) (f_equal (@rev N) E)).
Qed.
Lemma words_rstrip s : words (rstrip s) = words s.
Proof. destruct (rstrip_split s) as (l & E & H). rewrite E at 2. symmetry. now apply words_trailing. Qed.
Lemma words_strip s : words (strip s) = words s.
Proof. unfold strip, strip_p. fold (lstrip s). exact (eq_trans (words_rstrip (lstrip s)) (words_lstrip s)). Qed.

(** The words of a text without its backquotes *)
Lemma filter_rev_str (p : N -> bool) l : filter p (rev l) = rev (filter p l).
Proof.
  induction l as [|c l IH]; [reflexivity|]. cbn [rev filter]. rewrite filter_app, IH. cbn [filter].
  destruct (p c); [reflexivity|apply app_nil_r].
Qed.
Lemma text_from s : forall cur, forallb (fun c => negb (is_space c)) cur = true ->
  words_from (unticked cur) (unticked s) = flat_map text_words (words_from cur s).
Proof.
  assert (K : forall cur, forallb (fun c => negb (is_space c)) cur = true ->
    text_words (rev cur) = match unticked cur with [] => [] | x => [rev x] end).
  { intros cur H. unfold text_words, unticked. rewrite filter_rev_str. rewrite words_one.
    - destruct (filter (fun c : N => negb (c =? 96)) cur) as [|x r] eqn:E; [reflexivity|]. destruct (rev (x :: r)) eqn:E2; [|now rewrite <- E2].
      apply (f_equal (@length N)) in E2. now rewrite rev_length in E2.
    - rewrite forallb_rev. rewrite forallb_forall in H |- *. intros x X. apply filter_In in X. now apply H. }
  induction s as [|c s IH]; intros cur H.
  - cbn [words_from unticked filter]. destruct cur as [|x cur]; [reflexivity|]. cbn [flat_map]. rewrite app_nil_r.
    rewrite K by exact H. cbn [words_from]. destruct (unticked (x :: cur)); reflexivity.
  - cbn [words_from unticked filter]. fold (unticked s). destruct (c =? 96) eqn:T; cbn [negb].
    + apply N.eqb_eq in T. subst c. change (is_space 96) with false. cbv iota. rewrite <- IH; [reflexivity|].
      cbn [forallb]. now rewrite H.
    + cbn [words_from]. destruct (is_space c) eqn:S.
      * destruct cur as [|x cur].
        -- change (unticked []) with (@nil N). cbv iota. now apply (IH []).
        -- cbn [flat_map]. rewrite K by exact H. rewrite <- (IH [] eq_refl). change (unticked []) with (@nil N).
           destruct (unticked (x :: cur)); reflexivity.
      * rewrite <- IH; [|cbn [forallb]; now rewrite S]. cbn [unticked filter]. now rewrite T.
Qed.
Lemma text_of_words s : text_words s = flat_map text_words (words s).
Proof. now apply (text_from s []). Qed.
Lemma text_same s t : words s = words t -> text_words s = text_words t.
Proof. intros E. rewrite (text_of_words s), (text_of_words t). now rewrite E. Qed.
Lemma text_app a c b : is_space c = true -> text_words (a ++ c :: b) = text_words a ++ text_words b.
Proof. intros S. rewrite (text_of_words (a ++ c :: b)), words_app, flat_map_app, <- !text_of_words by exact S. reflexivity. Qed.

(** wrap *)
Lemma wrap_from_words lines : forall current text,
  flat_map words (wrap_from current text lines) = words text ++ flat_map words lines.
Proof.
  induction lines as [|line lines IH]; intros current text; cbn [wrap_from flat_map].
  - destruct text; [reflexivity|]. cbn [flat_map]. reflexivity.
  - destruct (_ || _)%bool.
    + rewrite flat_map_app. cbn [flat_map app]. rewrite IH, words_rstrip. change (words []) with (@nil str).
      destruct text; [reflexivity|]. cbn [flat_map]. now rewrite app_nil_r.
    + destruct text as [|x text].
      * rewrite IH, words_rstrip. reflexivity.
      * assert (W : words ((x :: text) ++ [32] ++ lstrip (rstrip line)) = words (x :: text) ++ words line).
        2: { rewrite IH, W. now rewrite <- app_assoc. }
        refine (eq_trans (words_app (x :: text) 32 (lstrip (rstrip line)) eq_refl) _).
        f_equal. exact (eq_trans (words_lstrip (rstrip line)) (words_rstrip line)).
Qed.
Lemma wrap_words lines : flat_map words (wrap lines) = flat_map words lines.
Proof. apply (wrap_from_words lines 0%nat []). Qed.

(** Paragraphs *)
Lemma paragraphs_cons c d t : paragraphs (c :: d :: t) =
  if ((c =? NL) && (d =? NL))%bool then [] :: paragraphs t
  else match paragraphs (d :: t) with [] => [[c]] | h :: r => (c :: h) :: r end.
Proof. reflexivity. Qed.
Lemma paragraphs_nonnil s : paragraphs s <> [].
Proof.
  destruct s as [|c [|d s]]; [discriminate|discriminate|]. rewrite paragraphs_cons. destruct (_ && _)%bool; [discriminate|].
  destruct (paragraphs (d :: s)); discriminate.
Qed.
Lemma join_cons2 (sep x : str) l : l <> [] -> join_with sep (x :: l) = x ++ sep ++ join_with sep l.
Proof. destruct l; [easy|reflexivity]. Qed.
Lemma paragraphs_join : forall n s, (length s <= n)%nat -> join_with [NL; NL] (paragraphs s) = s.
Proof.
  induction n as [|n IH]; intros s L; [destruct s; [reflexivity|cbn in L; lia]|].
  destruct s as [|c t]; [reflexivity|]. destruct t as [|d t]; [reflexivity|].
  cbn [length] in L.
  rewrite paragraphs_cons.
  destruct ((c =? NL) && (d =? NL))%bool eqn:E.
  - apply andb_true_iff in E as [E1 E2]. apply N.eqb_eq in E1, E2. subst.
    rewrite join_cons2 by apply paragraphs_nonnil. rewrite IH by lia. reflexivity.
  - pose proof (IH (d :: t) ltac:(cbn [length]; lia)) as H. destruct (paragraphs (d :: t)) as [|h r] eqn:P.
    + now apply paragraphs_nonnil in P.
    + destruct r as [|y r]; cbn [join_with] in H |- *; [now rewrite H|].
      change ((c :: h) ++ ?x) with (c :: (h ++ x)). now rewrite H.
Qed.
Lemma paragraphs_text s : join_with [NL; NL] (paragraphs s) = s.
Proof. now apply (paragraphs_join (length s)). Qed.
Lemma words_joined l : words (join_with [NL; NL] l) = flat_map words l.
Proof.
  induction l as [|x [|y l] IH]; [reflexivity|cbn [join_with flat_map]; now rewrite app_nil_r|].
  rewrite join_cons2 by discriminate. cbn [app]. rewrite words_app, words_space by reflexivity. rewrite IH. reflexivity.
Qed.
Lemma collapse_words s : words (collapse s) = words s.
Proof.
  unfold collapse. rewrite words_joined, <- (paragraphs_text s) at 1. rewrite paragraphs_text.
  rewrite <- (paragraphs_text s) at 2. rewrite words_joined. induction (paragraphs s) as [|p l IH]; [reflexivity|].
  cbn [map flat_map]. now rewrite words_again, IH.
Qed.
Lemma paragraph_place l1 p l2 : exists b, (join_with [NL; NL] (l1 ++ p :: l2) = b \/ exists a, join_with [NL; NL] (l1 ++ p :: l2) = a ++ [NL; NL] ++ b) /\
  exists r, words b = words p ++ r.
Proof.
  assert (B : exists r, words (join_with [NL; NL] (p :: l2)) = words p ++ r).
  { rewrite words_joined. cbn [flat_map]. eauto. }
  exists (join_with [NL; NL] (p :: l2)). split; [|exact B].
  induction l1 as [|x l1 IH]; [now left|]. right. cbn [app].
  rewrite join_cons2 by (destruct l1; discriminate). destruct IH as [->|[a ->]].
  - now exists x.
  - exists (x ++ [NL; NL] ++ a). now rewrite <- !app_assoc.
Qed.
Lemma readable_paragraph s p : Readable s -> In p (paragraphs s) -> ~ begins_control p.
Proof.
  intros [_ H] I (w & r & E & C). apply in_split in I as (l1 & l2 & I).
  destruct (paragraph_place l1 p l2) as (b & J & q & W). rewrite <- I, paragraphs_text in J.
  destruct J as [J|[a J]].
  - apply (H [] b); [now left|]. exists w, (r ++ q). split; [|exact C]. rewrite W, E. reflexivity.
  - apply (H a b); [now right|]. exists w, (r ++ q). split; [|exact C]. rewrite W, E. reflexivity.
Qed.

(** The lines of the collapsed text *)
Lemma join_no_newline p : ~ In NL (join_with [32] (words p)).
Proof.
  pose proof (words_are p) as H. induction (words p) as [|x [|y l] IH]; [easy| |].
  - destruct (H x (or_introl eq_refl)) as [_ W]. cbn [join_with]. intros I. rewrite forallb_forall in W. apply W in I. discriminate.
  - rewrite join_cons2 by discriminate. rewrite !in_app_iff. intros [I|[[I|[]]|I]].
    + destruct (H x (or_introl eq_refl)) as [_ W]. rewrite forallb_forall in W. apply W in I. discriminate.
    + discriminate.
    + apply IH; [|exact I]. intros w X. apply H. now right.
Qed.
Lemma split_joined l : (forall x, In x l -> ~ In NL x) -> forall y, In y (split_on NL (join_with [NL; NL] l)) -> y = [] \/ In y l.
Proof.
  induction l as [|x [|z l] IH]; intros H y.
  - cbn. intros [<-|[]]. now left.
  - cbn [join_with]. rewrite split_on_nosep by (apply H; now left). intros [<-|[]]. right. now left.
  - rewrite join_cons2 by discriminate. cbn [app]. rewrite split_on_app by (apply H; now left).
    intros [<-|I]; [right; now left|].
    change (split_on NL (NL :: join_with [NL; NL] (z :: l))) with ([] :: split_on NL (join_with [NL; NL] (z :: l))) in I.
    destruct I as [<-|I]; [now left|]. apply IH in I; [|intros u U; apply H; now right]. destruct I as [->|I]; [now left|right; now right].
Qed.
Lemma join_control p : control (join_with [32] (words p)) = true -> begins_control p.
Proof.
  destruct (words p) as [|w r] eqn:E; [discriminate|]. intros C. exists w, r. split; [exact E|].
  destruct (words_are p w) as [N _]; [rewrite E; now left|]. destruct w as [|c w]; [easy|]. destruct r; exact C.
Qed.
Lemma collapse_lines s l : Readable s -> In l (split_on NL (collapse s)) -> control l = false.
Proof.
  intros R I. unfold collapse in I. apply split_joined in I.
  - destruct I as [->|I]; [reflexivity|]. apply in_map_iff in I as (p & <- & I).
    destruct (control _) eqn:C; [|reflexivity]. apply join_control in C. now apply (readable_paragraph s p) in C.
  - intros x X. apply in_map_iff in X as (p & <- & _). apply join_no_newline.
Qed.
Lemma words_in s w c : In w (words s) -> In c w -> In c s.
Proof.
  intros I J. assert (X : In c (concat (words s))) by (apply in_concat; eauto).
  rewrite words_chars in X. now apply filter_In in X.
Qed.
Lemma join_in sep c : forall l, In c (join_with sep l) -> In c sep \/ exists x, In x l /\ In c x.
Proof.
  induction l as [|x [|y l] IH]; intros H; [destruct H|right; exists x; split; [now left|exact H]|].
  rewrite join_cons2 in H by discriminate. rewrite !in_app_iff in H. destruct H as [H|[H|H]]; [|now left|].
  - right. exists x. split; [now left|exact H].
  - destruct (IH H) as [K|(z & K & L)]; [now left|]. right. exists z. split; [now right|exact L].
Qed.
Lemma collapse_in s c : is_space c = false -> In c (collapse s) -> In c s.
Proof.
  intros S H. assert (X : In c (concat (words s))).
  { rewrite <- collapse_words, words_chars. apply filter_In. split; [exact H|now rewrite S]. }
  rewrite words_chars in X. now apply filter_In in X.
Qed.

(** Decoration: fonts are switched, and backquotes become switches of the font. *)
Definition font (f : str) : Prop := f = bd \/ f = it \/ f = rs.
Inductive Dec : str -> str -> Prop :=
| D_nil : Dec [] []
| D_char c s t : Dec s t -> Dec (c :: s) (c :: t)
| D_font f s t : font f -> Dec s t -> Dec s (f ++ t)
| D_tick f s t : font f -> Dec s t -> Dec (96 :: s) (f ++ t)
| D_tick2 f s t : font f -> Dec s t -> Dec (96 :: 96 :: s) (f ++ t).
Lemma Dec_app a b c d : Dec a b -> Dec c d -> Dec (a ++ c) (b ++ d).
Proof. intros H K. induction H; cbn [app]; rewrite <- ?app_assoc; auto using Dec. Qed.
Lemma Dec_refl s : Dec s s.
Proof. induction s; auto using Dec. Qed.
Lemma Dec_f f t : font f -> Dec [] t -> Dec [] (f ++ t).
Proof. intros. now apply D_font. Qed.

Lemma run_of_split p s : forall a b, run_of p s = (a, b) -> s = a ++ b.
Proof.
  induction s as [|c s IH]; cbn [run_of]; intros a b H; [now injection H as <- <-|].
  destruct (p c); [|now injection H as <- <-]. destruct (run_of p s) as [a' b'] eqn:E. injection H as <- <-.
  cbn [app]. now rewrite <- (IH a' b' eq_refl).
Qed.
Lemma enclosed_split fence stop out s o n : enclosed fence stop out s = Some (o, n) ->
  exists a r, s = (fence ++ a ++ fence) ++ r /\ o = out a /\ n = length (fence ++ a ++ fence) /\ a <> [].
Proof.
  unfold enclosed. destruct (starts_with fence s) eqn:S; [|discriminate]. apply starts_with_iff in S as [t ->].
  rewrite skipn_app, skipn_all, Nat.sub_diag. cbn [app skipn].
  destruct (run_of _ t) as [a b] eqn:R. apply run_of_split in R. subst t. destruct a as [|c a]; [discriminate|].
  destruct (starts_with fence b) eqn:S; [|discriminate]. apply starts_with_iff in S as [r ->].
  intros H. injection H as <- <-. exists (c :: a), r. rewrite <- !app_assoc. repeat split; [|discriminate].
  rewrite !app_length. cbn [length]. lia.
Qed.
Lemma font_bd : font bd. Proof. now left. Qed.
Lemma font_it : font it. Proof. right. now left. Qed.
Lemma font_rs : font rs. Proof. right. now right. Qed.
#[local] Hint Resolve font_bd font_it font_rs : core.
Lemma Dec_rs : Dec [] rs.
Proof. rewrite <- (app_nil_r rs). apply D_font; [auto|constructor]. Qed.
Lemma Dec_in f a t : font f -> Dec a t -> Dec a (f ++ t ++ rs).
Proof.
  intros F H. apply D_font; [exact F|]. rewrite <- (app_nil_r a). apply Dec_app; [exact H|apply Dec_rs].
Qed.
Lemma found_dec prev s o n : found prev s = Some (o, n) ->
  exists a r, s = a ++ r /\ n = length a /\ a <> [] /\ Dec a o.
Proof.
  unfold found, orelse. intros H.
  destruct (quoted s) as [[o1 n1]|] eqn:E1.
  { injection H as -> ->. unfold quoted in E1. destruct (possessive s); [discriminate|].
    apply enclosed_split in E1 as (a & r & -> & -> & -> & N). eexists. exists r. split; [reflexivity|]. split; [reflexivity|].
    split; [destruct a; discriminate|]. change ($"'") with [39]. cbn [app]. apply D_char. apply D_font; [auto|].
    apply Dec_app; [apply Dec_refl|]. apply D_font; [auto|]. repeat constructor. }
  clear E1. destruct (double_ticked s) as [[o1 n1]|] eqn:E1.
  { injection H as -> ->. apply enclosed_split in E1 as (a & r & -> & -> & -> & N). eexists. exists r. split; [reflexivity|]. split; [reflexivity|].
    split; [destruct a; discriminate|]. change ($"``") with [96; 96]. cbn [app]. apply D_tick2; [auto|].
    apply Dec_app; [apply Dec_refl|]. rewrite <- (app_nil_r rs). apply D_tick2; [auto|constructor]. }
  clear E1. destruct (ticked s) as [[o1 n1]|] eqn:E1.
  { injection H as -> ->. apply enclosed_split in E1 as (a & r & -> & -> & -> & N). eexists. exists r. split; [reflexivity|]. split; [reflexivity|].
    split; [destruct a; discriminate|]. change ($"`") with [96]. cbn [app]. apply D_tick; [auto|].
    apply Dec_app; [apply Dec_refl|]. rewrite <- (app_nil_r rs). apply D_tick; [auto|constructor]. }
  clear E1. destruct (reference s) as [[o1 n1]|] eqn:E1.
  { injection H as -> ->. unfold reference in E1. destruct (run_of is_page s) as [a b] eqn:R. apply run_of_split in R. subst s.
    destruct a as [|c a]; [discriminate|]. destruct b as [|x [|y [|z b]]]; try discriminate.
    destruct (_ && _ && _)%bool; [|discriminate]. injection E1 as <- <-. exists ((c :: a) ++ [x; y; z]), b.
    split; [now rewrite <- app_assoc|]. split; [rewrite app_length; reflexivity|]. split; [discriminate|].
    change (Dec ((c :: a) ++ [x; y; z]) (bd ++ (c :: a) ++ rs ++ [x; y; z])).
    apply D_font; [auto|]. apply Dec_app; [apply Dec_refl|]. apply D_font; [auto|apply Dec_refl]. }
  clear E1. unfold option_ in H. destruct (match prev with Some _ => _ | None => _ end); [discriminate|].
  destruct s as [|x [|c t]]; try discriminate. destruct (negb (x =? 45)); [discriminate|].
  destruct (is_letter c).
  - injection H as <- <-. exists [x; c], t. repeat split; [discriminate|].
    apply (Dec_in bd [x; c] [x; c]); [auto|apply Dec_refl].
  - destruct (c =? 45); [|discriminate]. destruct (run_of is_option t) as [a b] eqn:R. apply run_of_split in R. subst t.
    destruct a as [|y a]; [discriminate|]. injection H as <- <-. exists (x :: c :: y :: a), b.
    repeat split; [discriminate|]. apply (Dec_in bd (x :: c :: y :: a) (x :: c :: y :: a)); [auto|apply Dec_refl].
Qed.
Lemma highlight_dec s : forall prev k, Dec (skipn k s) (highlight prev k s).
Proof.
  induction s as [|c s IH]; intros prev k; [destruct k; constructor|]. destruct k as [|k]; cbn [skipn highlight]; [|apply IH].
  destruct (found prev (c :: s)) as [[o n]|] eqn:F; [|apply D_char, (IH _ 0%nat)].
  apply found_dec in F as (a & r & E & -> & N & D). destruct a as [|x a]; [easy|]. injection E as <- ->.
  cbn [length Nat.pred]. specialize (IH (Some c) (length a)). rewrite skipn_app, skipn_all, Nat.sub_diag in IH. cbn [app skipn] in IH.
  change (c :: a ++ r) with ((c :: a) ++ r). now apply Dec_app.
Qed.

(** Reading it back *)
Lemma unroff_font f t : font f -> unroff (f ++ t) = unroff t.
Proof. intros [->|[->| ->]]; reflexivity. Qed.
Lemma escape_font f t : font f -> escape (f ++ t) = f ++ escape t.
Proof. intros [->|[->| ->]]; reflexivity. Qed.
Lemma Dec_read s t : Dec s t -> ~ In 92 s -> unticked (unroff (escape t)) = unticked s.
Proof.
  induction 1 as [|c s t D IH|f s t F D IH|f s t F D IH|f s t F D IH]; intros N.
  - reflexivity.
  - assert (N' : ~ In 92 s) by (intros X; apply N; now right). cbn [escape flat_map]. fold (escape t). destruct (c =? 45) eqn:E.
    + apply N.eqb_eq in E. subst c. cbn [app]. change (unroff (92 :: 45 :: escape t)) with (45 :: unroff (escape t)).
      cbn [unticked filter]. change (negb (45 =? 96)) with true. cbv iota. f_equal. now apply IH.
    + cbn [app unroff]. destruct (c =? 92) eqn:E2; [apply N.eqb_eq in E2; subst c; exfalso; apply N; now left|].
      cbn [unticked filter]. destruct (negb (c =? 96)); [f_equal|]; now apply IH.
  - rewrite escape_font, unroff_font by exact F. now apply IH.
  - rewrite escape_font, unroff_font by exact F. cbn [unticked filter]. change (negb (96 =? 96)) with false. cbv iota.
    apply IH. intros X. apply N. now right.
  - rewrite escape_font, unroff_font by exact F. cbn [unticked filter]. change (negb (96 =? 96)) with false. cbv iota.
    apply IH. intros X. apply N. right. now right.
Qed.
Lemma Dec_control s t : Dec s t -> control s = false -> control (escape t) = false.
Proof.
  intros D C. destruct D as [|c s t D|f s t F D|f s t F D|f s t F D]; [reflexivity| | | |].
  - cbn [escape flat_map]. destruct (c =? 45); [reflexivity|exact C].
  - rewrite escape_font by exact F. destruct F as [->|[->| ->]]; reflexivity.
  - rewrite escape_font by exact F. destruct F as [->|[->| ->]]; reflexivity.
  - rewrite escape_font by exact F. destruct F as [->|[->| ->]]; reflexivity.
Qed.
(** A character before the first line *)
Definition onto (a : str) (l : list str) : list str := match l with [] => [a] | h :: r => (a ++ h) :: r end.
Lemma split_onto a t : ~ In NL a -> split_on NL (a ++ t) = onto a (split_on NL t).
Proof.
  induction a as [|c a IH]; intros N; cbn [app].
  - destruct (split_on NL t) eqn:E; [now apply split_on_nonnil in E|reflexivity].
  - cbn [split_on]. destruct (N.eqb_spec c NL) as [->|X]; [exfalso; apply N; now left|].
    rewrite IH by (intros Y; apply N; now right). destruct (split_on NL t) eqn:E; [now apply split_on_nonnil in E|reflexivity].
Qed.
Lemma font_line f : font f -> ~ In NL f.
Proof. intros [->|[->| ->]] H; cbn in H; intuition discriminate. Qed.
Lemma Dec_lines s t : Dec s t -> Forall2 Dec (split_on NL s) (split_on NL t).
Proof.
  assert (G : forall a b ls lt, Dec a b -> Forall2 Dec ls lt -> Forall2 Dec (onto a ls) (onto b lt)).
  { intros a b ls lt D F. destruct F; cbn [onto]; constructor; auto using Dec_app. }
  assert (O : forall ls, ls <> [] -> onto [] ls = ls) by (intros [|h r]; easy).
  induction 1 as [|c s t D IH|f s t F D IH|f s t F D IH|f s t F D IH].
  - repeat constructor.
  - destruct (N.eqb_spec c NL) as [->|X].
    + cbn [split_on]. rewrite N.eqb_refl. constructor; [constructor|exact IH].
    + assert (N : ~ In NL [c]) by (intros [Y|[]]; congruence).
      pose proof (split_onto [c] s N) as E1. pose proof (split_onto [c] t N) as E2. cbn [app] in E1, E2.
      rewrite E1, E2. apply G; [apply Dec_refl|exact IH].
  - rewrite (split_onto f t) by now apply font_line. rewrite <- (O (split_on NL s)) by apply split_on_nonnil.
    apply G; [|exact IH]. rewrite <- (app_nil_r f). apply D_font; [exact F|constructor].
  - rewrite (split_onto f t) by now apply font_line. 
    assert (E : split_on NL (96 :: s) = onto [96] (split_on NL s)) by (apply (split_onto [96] s); intros [Y|[]]; discriminate).
    rewrite E. apply G; [|exact IH].
    rewrite <- (app_nil_r f). apply D_tick; [exact F|constructor].
  - rewrite (split_onto f t) by now apply font_line. 
    assert (E : split_on NL (96 :: 96 :: s) = onto [96; 96] (split_on NL s)) by (apply (split_onto [96; 96] s); intros [Y|[Y|[]]]; discriminate).
    rewrite E. apply G; [|exact IH].
    rewrite <- (app_nil_r f). apply D_tick2; [exact F|constructor].
Qed.
Lemma escape_lines t : split_on NL (escape t) = map escape (split_on NL t).
Proof.
  induction t as [|c t IH]; [reflexivity|]. cbn [escape flat_map]. fold (escape t).
  destruct (N.eqb_spec c 45) as [->|X].
  - change (if 45 =? 45 then [92; 45] else [45]) with [92; 45].
    rewrite (split_onto [92; 45]) by (intros [Y|[Y|[]]]; discriminate). rewrite IH.
    assert (E : split_on NL (45 :: t) = onto [45] (split_on NL t)) by (apply (split_onto [45] t); intros [Y|[]]; discriminate).
    refine (eq_trans _ (eq_sym (f_equal (map escape) E))). destruct (split_on NL t); reflexivity.
  - cbn [app split_on]. destruct (N.eqb_spec c NL) as [->|Y]; [cbn [map]; now rewrite IH|].
    rewrite IH. destruct (split_on NL t) as [|h r]; cbn [map escape flat_map app]; destruct (N.eqb_spec c 45); try easy.
Qed.
Lemma text_lines s : flat_map text_words (split_on NL s) = text_words s.
Proof.
  rewrite <- (join_split NL s) at 2. induction (split_on NL s) as [|x [|y l] IH]; [reflexivity|cbn [join_with flat_map]; apply app_nil_r|].
  rewrite join_cons2 by discriminate. cbn [app]. rewrite text_app by reflexivity. rewrite <- IH. reflexivity.
Qed.
Lemma split_in c s x l : In l (split_on c s) -> In x l -> In x s.
Proof.
  intros I J. rewrite <- (join_split c s). apply in_split in I as (l1 & l2 & ->). clear s.
  induction l1 as [|y l1 IH]; cbn [app].
  - destruct l2; [exact J|]. rewrite join_cons2 by discriminate. rewrite in_app_iff. now left.
  - rewrite join_cons2 by (destruct l1; discriminate). rewrite !in_app_iff. right. now right.
Qed.
Lemma dec_page s t : Dec s t -> ~ In 92 s -> (forall l, In l (split_on NL s) -> control l = false) ->
  page_words (escape t) = text_words s.
Proof.
  intros D N C. unfold page_words. rewrite escape_lines, <- text_lines.
  assert (N' : forall l, In l (split_on NL s) -> ~ In 92 l) by (intros l I J; now apply N, (split_in NL s 92 l)).
  apply Dec_lines in D. revert C N'. induction D as [|a b ls lt D F IH]; intros C N'; [reflexivity|].
  cbn [map flat_map]. f_equal.
  - unfold shown. rewrite (Dec_control a b D) by (apply C; now left). unfold text_words.
    rewrite (Dec_read a b D); [reflexivity|apply N'; now left].
  - apply IH; intros l I; [apply C|apply N']; now right.
Qed.
Lemma process_words s : Readable s -> page_words (process s) = text_words s.
Proof.
  intros R. unfold process. rewrite (dec_page (collapse s)).
  - apply text_same, collapse_words.
  - exact (highlight_dec (collapse s) None 0%nat).
  - intros I. apply collapse_in in I; [|reflexivity]. now apply R in I.
  - intros l I. exact (collapse_lines s l R I).
Qed.
