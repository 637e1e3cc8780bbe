(** The words of FF_OPTIONS *)
From Coq Require Import List NArith Bool Lia Arith.
From Verif Require Import Py ShlexModel ShlexSpec ArgumentsModel.
Import ListNotations.
Local Open Scope nat_scope.

Lemma whitespace_blank c : whitespace c = true <-> blank c.
Proof.
  unfold whitespace, blank. rewrite existsb_exists. split.
  - intros (x & I & E). apply N.eqb_eq in E. subst x. cbn [In] in *. tauto.
  - intro I. exists c. split; [cbn [In] in *; tauto | apply N.eqb_refl].
Qed.
Lemma whitespace_not c : whitespace c = false <-> ~ blank c.
Proof. rewrite <- whitespace_blank. destruct (whitespace c); split; intro H; congruence. Qed.
Lemma quotes_cases c : quotes c = true <-> c = 39%N \/ c = 34%N.
Proof.
  unfold quotes. cbn [existsb]. rewrite orb_false_r, orb_true_iff, !N.eqb_eq. tauto.
Qed.
Lemma escape_is c : escape c = true <-> c = 92%N.
Proof. apply N.eqb_eq. Qed.
Lemma special_not c : ~ special c <-> quotes c = false /\ escape c = false.
Proof.
  unfold special. cbn [In]. rewrite <- !not_true_iff_false, quotes_cases, escape_is. intuition congruence.
Qed.

(** What a token needs to be emitted *)
Definition emits (tok : str) (q : bool) : Prop := tok <> [] \/ q = true.
Lemma emits_if (tok : str) q {A} (a b : A) : emits tok q ->
  (if match tok with [] => q | _ => true end then a else b) = a.
Proof. intros [H | H]; destruct tok; try congruence. now subst q. Qed.
Lemma emits_more tok q v : emits tok q -> emits (tok ++ v) q.
Proof. intros [H | H]; [left | now right]. destruct tok; [congruence | discriminate]. Qed.
Lemma emits_snoc tok q c : emits (tok ++ [c]) q.
Proof. left. destruct tok; discriminate. Qed.

Lemma lex_single s : forall tok q rest, ~ In 39%N s ->
  lex (Quote 39%N) tok q (s ++ 39%N :: rest) = lex Word (tok ++ s) true rest.
Proof.
  induction s as [| c s IH]; intros tok q rest N.
  - cbn. now rewrite app_nil_r.
  - cbn [app lex]. destruct (N.eqb_spec c 39%N) as [-> | D]; [destruct N; now left |].
    change (N.eqb 39%N 34%N) with false. rewrite andb_false_r, IH by (intro I; apply N; now right).
    now rewrite <- app_assoc.
Qed.
Lemma lex_double s v : Inside s v -> forall tok q rest,
  lex (Quote 34%N) tok q (s ++ 34%N :: rest) = lex Word (tok ++ v) true rest.
Proof.
  induction 1 as [| c s t D E H IH | c s t D H IH | c s t D E H IH]; intros tok q rest.
  - cbn. now rewrite app_nil_r.
  - cbn [app lex]. unfold escape. apply N.eqb_neq in D, E. rewrite D, E. cbn [andb].
    rewrite IH, <- app_assoc. reflexivity.
  - cbn [app lex]. change (N.eqb 92%N 34%N) with false. change (escape 92%N && N.eqb 34%N 34%N)%bool with true.
    cbn [negb andb]. assert (X : negb (escape c) && negb (N.eqb c 34%N) = false)
      by (destruct D as [-> | ->]; reflexivity).
    rewrite X, IH, <- app_assoc. reflexivity.
  - cbn [app lex]. change (N.eqb 92%N 34%N) with false. change (escape 92%N && N.eqb 34%N 34%N)%bool with true.
    unfold escape. apply N.eqb_neq in D, E. rewrite D, E. cbn [negb andb].
    rewrite IH, <- !app_assoc. reflexivity.
Qed.

Lemma lex_part p v : Part p v -> forall tok q rest, exists q', emits v q' /\ (q = true -> q' = true) /\
  lex Word tok q (p ++ rest) = lex Word (tok ++ v) q' rest.
Proof.
  intros [c B S | c | s N | s t I] tok q rest.
  - exists q. repeat split; [left; discriminate | auto |]. apply special_not in S. destruct S as [Q E].
    apply whitespace_not in B. cbn [app lex]. now rewrite B, Q, E.
  - exists q. repeat split; [left; discriminate | auto].
  - exists true. repeat split; [now right |].
    change ((39%N :: s ++ [39%N]) ++ rest) with (39%N :: (s ++ [39%N]) ++ rest).
    rewrite <- app_assoc. exact (lex_single s tok q rest N).
  - exists true. repeat split; [now right |].
    change ((34%N :: s ++ [34%N]) ++ rest) with (34%N :: (s ++ [34%N]) ++ rest).
    rewrite <- app_assoc. exact (lex_double s t I tok q rest).
Qed.
Lemma emits_app_r tok v q : emits v q -> emits (tok ++ v) q.
Proof. intros [H | H]; [left | now right]. destruct tok; [exact H | discriminate]. Qed.
Lemma lex_parts s v : Parts s v -> forall tok q rest, exists q', emits v q' /\
  lex Word tok q (s ++ rest) = lex Word (tok ++ v) q' rest.
Proof.
  induction 1 as [p v H | p v s t H _ IH]; intros tok q rest.
  - destruct (lex_part p v H tok q rest) as (q' & A & _ & B). now exists q'.
  - destruct (lex_part p v H tok q (s ++ rest)) as (q1 & _ & _ & B).
    destruct (IH (tok ++ v) q1 rest) as (q' & A & C).
    exists q'. split; [now apply emits_app_r |]. rewrite <- app_assoc, B, C, <- app_assoc. reflexivity.
Qed.
Lemma part_head p v : Part p v -> exists c p', p = c :: p' /\ whitespace c = false.
Proof.
  intros [c B S | c | s N | s t I].
  - exists c, []. split; [reflexivity | now apply whitespace_not].
  - now exists 92%N, [c].
  - now eexists 39%N, _.
  - now eexists 34%N, _.
Qed.
Lemma parts_head s v : Parts s v -> exists c s', s = c :: s' /\ whitespace c = false.
Proof.
  destruct 1 as [p v H | p v s t H _].
  - eapply part_head, H.
  - destruct (part_head p v H) as (c & p' & -> & W). now exists c, (p' ++ s).
Qed.
Lemma lex_start c s : whitespace c = false -> lex Space [] false (c :: s) = lex Word [] false (c :: s).
Proof.
  intro W. cbn [lex]. rewrite W. destruct (escape c) eqn:E, (quotes c) eqn:Q; try reflexivity.
  apply escape_is in E. subst c. discriminate Q.
Qed.
Lemma lex_blanks b : forall rest, blanks b -> lex Space [] false (b ++ rest) = lex Space [] false rest.
Proof.
  induction b as [| c b IH]; intros rest B; [reflexivity |].
  cbn [app lex]. assert (W : whitespace c = true) by (apply whitespace_blank, B; now left).
  rewrite W. apply IH. intros x I. apply B. now right.
Qed.
Lemma words_lex s l : Words s l -> shlex_split s = Ok l.
Proof.
  unfold shlex_split. induction 1 as [s B | b s v B P | b s v c rest l B P K _ IH].
  - rewrite <- (app_nil_r s), lex_blanks by exact B. reflexivity.
  - rewrite lex_blanks by exact B. destruct (parts_head s v P) as (x & s' & -> & W).
    rewrite lex_start by exact W. rewrite <- (app_nil_r (x :: s')).
    destruct (lex_parts _ _ P [] false []) as (q & E & ->). cbn [app lex]. now rewrite emits_if.
  - rewrite lex_blanks by exact B. destruct (parts_head s v P) as (x & s' & -> & W).
    change ((x :: s') ++ c :: rest) with (x :: (s' ++ c :: rest)). rewrite lex_start by exact W.
    change (x :: (s' ++ c :: rest)) with ((x :: s') ++ c :: rest).
    destruct (lex_parts _ _ P [] false (c :: rest)) as (q & E & ->). cbn [app lex].
    apply whitespace_blank in K. rewrite K, emits_if by exact E. now rewrite IH.
Qed.

(** The rest of a word and the words after it *)
Inductive Tail : str -> str -> list str -> Prop :=
| tail_end : Tail [] [] []
| tail_blank c rest l : blank c -> Words rest l -> Tail (c :: rest) [] l
| tail_part p v s t l : Part p v -> Tail s t l -> Tail (p ++ s) (v ++ t) l.
Lemma parts_snoc s t p v : Parts s t -> Part p v -> Parts (s ++ p) (t ++ v).
Proof.
  intro H. induction H as [p0 v0 H | p0 v0 s t H _ IH]; intro P.
  - apply parts_more; [exact H | now apply parts_one].
  - rewrite <- !app_assoc. apply parts_more; auto.
Qed.
Lemma tail_words s t l : Tail s t l -> forall b p v, blanks b -> Parts p v -> Words (b ++ p ++ s) ((v ++ t) :: l).
Proof.
  induction 1 as [| c rest l K W | p' v' s t l P _ IH]; intros b p v B Q.
  - rewrite !app_nil_r. now apply words_last.
  - rewrite app_nil_r. now apply words_more.
  - specialize (IH b (p ++ p') (v ++ v') B (parts_snoc _ _ _ _ Q P)). now rewrite <- !app_assoc in IH.
Qed.

Lemma single_lex s : forall tok q l, lex (Quote 39%N) tok q s = Ok l ->
  exists body rest, s = body ++ 39%N :: rest /\ ~ In 39%N body /\ lex Word (tok ++ body) true rest = Ok l.
Proof.
  induction s as [| c s IH]; intros tok q l H; [discriminate H |].
  cbn [lex] in H. destruct (N.eqb_spec c 39%N) as [-> | D].
  - exists [], s. rewrite app_nil_r. now repeat split.
  - change (N.eqb 39%N 34%N) with false in H. rewrite andb_false_r in H.
    apply IH in H. destruct H as (body & rest & -> & N & H). exists (c :: body), rest.
    rewrite <- app_assoc in H. repeat split; [| exact H]. intros [I | I]; auto.
Qed.
Lemma double_lex n : forall s tok q l, length s <= n -> lex (Quote 34%N) tok q s = Ok l ->
  exists body v rest, s = body ++ 34%N :: rest /\ Inside body v /\ lex Word (tok ++ v) true rest = Ok l.
Proof.
  induction n as [| n IH]; intros s tok q l L H.
  - destruct s; [discriminate H | cbn in L; lia].
  - destruct s as [| c s]; [discriminate H |]. cbn [lex] in H. cbn [length] in L.
    destruct (N.eqb_spec c 34%N) as [-> | D].
    + exists [], [], s. rewrite app_nil_r. repeat split; [constructor | exact H].
    + destruct (escape c) eqn:E.
      * change (N.eqb 34%N 34%N) with true in H. cbn [andb] in H.
        destruct s as [| d s]; [discriminate H |]. cbn [lex] in H. cbn [length] in L.
        apply escape_is in E. subst c.
        apply IH in H; [| lia]. destruct H as (body & v & rest & -> & I & H).
        destruct (negb (escape d) && negb (N.eqb d 34%N)) eqn:X.
        -- apply andb_true_iff in X. destruct X as [X Y]. apply negb_true_iff in X, Y.
           exists (92%N :: d :: body), (92%N :: d :: v), rest. repeat split.
           ++ apply inside_backslash; [now apply N.eqb_neq | now apply N.eqb_neq | exact I].
           ++ now rewrite <- !app_assoc in H.
        -- exists (92%N :: d :: body), (d :: v), rest. repeat split.
           ++ apply inside_escape; [| exact I]. apply andb_false_iff in X. unfold escape in X.
              destruct X as [X | X]; apply negb_false_iff, N.eqb_eq in X; tauto.
           ++ now rewrite <- !app_assoc in H.
      * cbn [andb] in H. apply IH in H; [| lia]. destruct H as (body & v & rest & -> & I & H).
        exists (c :: body), (c :: v), rest. repeat split.
        -- apply inside_char; [exact D | | exact I]. now apply N.eqb_neq.
        -- now rewrite <- !app_assoc in H.
Qed.

Lemma len_after {A} (a : A) body rest : length rest < length (a :: body ++ a :: rest).
Proof. cbn [length]. rewrite app_length. cbn [length]. lia. Qed.
(** A word at its beginning: one part and the rest *)
Lemma word_part c s tok q l : whitespace c = false -> lex Word tok q (c :: s) = Ok l ->
  exists p v rest q', c :: s = p ++ rest /\ Part p v /\ emits (tok ++ v) q' /\ length rest < length (c :: s) /\
    lex Word (tok ++ v) q' rest = Ok l.
Proof.
  intros W H. cbn [lex] in H. rewrite W in H. destruct (quotes c) eqn:Q.
  - apply quotes_cases in Q. destruct Q as [-> | ->].
    + apply single_lex in H. destruct H as (body & rest & -> & N & H).
      exists (39%N :: body ++ [39%N]), body, rest, true. repeat split; [| now apply part_single | now right | | exact H].
      * cbn [app]. now rewrite <- app_assoc.
      * apply len_after.
    + apply (double_lex _ _ _ _ _ (le_n _)) in H. destruct H as (body & v & rest & -> & N & H).
      exists (34%N :: body ++ [34%N]), v, rest, true. repeat split; [| now apply part_double | now right | | exact H].
      * cbn [app]. now rewrite <- app_assoc.
      * apply len_after.
  - destruct (escape c) eqn:E.
    + apply escape_is in E. subst c. destruct s as [| d s]; [discriminate H |]. cbn [lex] in H.
      exists [92%N; d], [d], s, q. repeat split; [constructor | apply emits_snoc | cbn [length]; lia | exact H].
    + exists [c], [c], s, q.
      repeat split; [apply part_char | apply emits_snoc | cbn [length]; lia | exact H].
      * now apply whitespace_not.
      * now apply special_not.
Qed.
Lemma bind_cons (r : res (list str)) v l : (do l' <- r; Ok (v :: l')) = Ok l -> exists l', r = Ok l' /\ l = v :: l'.
Proof. destruct r as [l' |]; cbn [bindr]; [| discriminate]. intro H. injection H as <-. now exists l'. Qed.

Lemma lex_both n : forall s, length s <= n ->
  (forall l, lex Space [] false s = Ok l -> Words s l) /\
  (forall tok q l, emits tok q -> lex Word tok q s = Ok l -> exists v l', Tail s v l' /\ l = (tok ++ v) :: l').
Proof.
  induction n as [| n IH]; intros s L.
  - destruct s; [| cbn in L; lia]. split.
    + intros l H. injection H as <-. apply words_none. intros c [].
    + intros tok q l E H. cbn [lex] in H. rewrite emits_if in H by exact E. injection H as <-.
      exists [], []. rewrite app_nil_r. split; [constructor | reflexivity].
  - assert (W : forall tok q l, emits tok q -> lex Word tok q s = Ok l ->
      exists v l', Tail s v l' /\ l = (tok ++ v) :: l').
    { intros tok q l E H. destruct s as [| c s].
      - cbn [lex] in H. rewrite emits_if in H by exact E. injection H as <-.
        exists [], []. rewrite app_nil_r. split; [constructor | reflexivity].
      - destruct (whitespace c) eqn:B.
        + cbn [lex] in H. rewrite B, emits_if in H by exact E. apply bind_cons in H.
          destruct H as (l' & H & ->). cbn [length] in L. apply IH in H; [| lia].
          exists [], l'. rewrite app_nil_r. split; [| reflexivity]. apply tail_blank; [now apply whitespace_blank | exact H].
        + apply word_part in H; [| exact B]. destruct H as (p & v & rest & q' & S & P & E' & K & H).
          assert (L' : length rest <= n) by lia. destruct (IH rest L') as [_ IW].
          destruct (IW _ _ _ E' H) as (t & l' & T & ->). exists (v ++ t), l'.
          rewrite S, app_assoc. split; [now apply tail_part | reflexivity]. }
    split; [| exact W]. intros l H. destruct s as [| c s].
    + injection H as <-. apply words_none. intros c [].
    + destruct (whitespace c) eqn:B.
      * cbn [lex] in H. rewrite B in H. cbn [length] in L. apply IH in H; [| lia].
        apply whitespace_blank in B.
        assert (X : forall s l, Words s l -> Words (c :: s) l).
        { clear -B. intros s l H. destruct H as [s H | b s v H P | b s v d rest l H P K W].
          - apply words_none. intros x [<- | I]; auto.
          - apply (words_last (c :: b)); [| exact P]. intros x [<- | I]; auto.
          - apply (words_more (c :: b)); auto. intros x [<- | I]; auto. }
        now apply X.
      * rewrite lex_start in H by exact B. apply word_part in H; [| exact B].
        destruct H as (p & v & rest & q' & S & P & E' & K & H).
        assert (L' : length rest <= n) by lia. destruct (IH rest L') as [_ IW].
        destruct (IW _ _ _ E' H) as (t & l' & T & ->). rewrite S.
        apply (tail_words _ _ _ T [] p v); [intros x [] | now apply parts_one].
Qed.
Lemma lex_words s l : shlex_split s = Ok l -> Words s l.
Proof. intro H. destruct (lex_both _ s (le_n _)) as [A _]. now apply A. Qed.
Lemma words_iff s l : shlex_split s = Ok l <-> Words s l.
Proof. split; [apply lex_words | apply words_lex]. Qed.

Lemma lex_error s : forall st tok q e, lex st tok q s = Err e -> e = ValueError.
Proof.
  induction s as [| c s IH]; intros st tok q e H; cbn [lex] in H.
  - destruct st; try (injection H as <-; reflexivity);
      destruct (match tok with [] => q | _ => true end); discriminate H.
  - assert (X : forall (b : bool) r, (forall e, r = Err e -> e = ValueError) ->
      (if b then do l <- r; Ok (tok :: l) else r) = Err e -> e = ValueError).
    { intros b r R K. destruct b; [| now apply R]. destruct r; cbn [bindr] in K; [discriminate | now apply R]. }
    destruct st as [| | y | [y |]]; repeat (match type of H with (if match _ with _ => _ end then _ else _) = _ => idtac
      | (if ?b then _ else _) = _ => destruct b end);
      try (now apply IH in H); revert H; apply X; intros ? K; now apply IH in K.
Qed.

(** collect_arguments *)
Lemma collect_read s argv a : collect_arguments shlex_split (Some s) argv = Ok a <->
  exists l, Words s l /\ a = l ++ argv.
Proof.
  unfold collect_arguments. assert (X : (match s with c :: s => shlex_split (c :: s) | [] => Ok [] end) = shlex_split s)
    by (now destruct s).
  assert (Y : (do env <- match Some s with Some (c :: s0) => shlex_split (c :: s0) | _ => Ok [] end; Ok (env ++ argv))
    = do env <- shlex_split s; Ok (env ++ argv)) by (now destruct s).
  rewrite Y. clear X Y. split.
  - destruct (shlex_split s) as [l |] eqn:E; cbn [bindr]; [| discriminate]. intro H. injection H as <-.
    exists l. split; [now apply words_iff | reflexivity].
  - intros (l & W & ->). apply words_iff in W. now rewrite W.
Qed.
Lemma collect_error s argv e : collect_arguments shlex_split (Some s) argv = Err e <->
  e = ValueError /\ forall l, ~ Words s l.
Proof.
  split.
  - intro H. split.
    + unfold collect_arguments in H. destruct s as [| c s]; [discriminate H |].
      destruct (shlex_split (c :: s)) eqn:E; cbn [bindr] in H; [discriminate H |].
      injection H as <-. now apply lex_error in E.
    + intros l W. assert (K : collect_arguments shlex_split (Some s) argv = Ok (l ++ argv))
        by (apply collect_read; now exists l). rewrite K in H. discriminate H.
  - intros [-> N]. destruct (collect_arguments shlex_split (Some s) argv) eqn:E.
    + apply collect_read in E. destruct E as (l & W & _). now destruct (N l).
    + f_equal. unfold collect_arguments in E. destruct s as [| c s]; [discriminate E |].
      destruct (shlex_split (c :: s)) eqn:K; cbn [bindr] in E; [discriminate E |].
      injection E as <-. now apply lex_error in K.
Qed.
Lemma words_fun s l l' : Words s l -> Words s l' -> l = l'.
Proof. intros A B. apply words_iff in A, B. congruence. Qed.

(** Quoting *)
Lemma quote_parts s : forall a, ~ In 39%N a -> exists t, Parts (39%N :: a ++ in_quotes s ++ [39%N]) t /\ t = a ++ s.
Proof.
  induction s as [| c s IH]; intros a N.
  - exists a. cbn [in_quotes app]. rewrite app_nil_r. split; [now apply parts_one, part_single | reflexivity].
  - cbn [in_quotes]. destruct (N.eqb_spec c 39%N) as [-> | D].
    + destruct (IH [] (fun x => x)) as (t & P & ->).
      exists (a ++ [39%N] ++ s). split; [| reflexivity].
      assert (Q : Parts ((39%N :: a ++ [39%N]) ++ (34%N :: [39%N] ++ [34%N]) ++ (39%N :: in_quotes s ++ [39%N]))
        (a ++ [39%N] ++ s)).
      { apply parts_more; [now apply part_single |]. apply parts_more; [| exact P].
        apply part_double. apply inside_char; [discriminate | discriminate | constructor]. }
      cbn [app] in Q |- *. rewrite <- app_assoc in Q. exact Q.
    + destruct (IH (a ++ [c])) as (t & P & ->).
      * intro I. apply in_app_or in I. destruct I as [I | [I | []]]; auto.
      * exists (a ++ c :: s). split; [| reflexivity]. rewrite <- !app_assoc in P. exact P.
Qed.
Lemma quote_read s : Parts (quote s) s.
Proof. destruct (quote_parts s [] (fun x => x)) as (t & P & ->). exact P. Qed.
Lemma quoted_words l : Words (flat_map (fun w => quote w ++ [32%N]) l) l.
Proof.
  induction l as [| w l IH]; cbn [flat_map].
  - apply words_none. intros c [].
  - rewrite <- app_assoc. apply (words_more [] (quote w) w 32%N _ l); [intros x [] | apply quote_read | now left | exact IH].
Qed.
