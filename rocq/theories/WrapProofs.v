(** textwrap.fill *)
From Coq Require Import List NArith ZArith Bool Lia.
From Verif Require Import Py WrapModel LogModel LogSpec.
Import ListNotations.
Local Open Scope Z_scope.

Lemma ink_app a b : ink (a ++ b) = ink a ++ ink b.
Proof. apply filter_app. Qed.
Lemma ink_hollow c : hollow c = true -> ink c = [].
Proof. unfold hollow, ink. induction c as [|x c IH]; cbn; [reflexivity|]. destruct (is_space x); cbn; [exact IH|discriminate]. Qed.
Lemma ink_blanks n : ink (blanks n) = [].
Proof. induction n as [|n IH]; [reflexivity|exact IH]. Qed.
Lemma ink_expand s : forall n, ink (expandtabs n s) = ink s.
Proof.
  induction s as [|c s IH]; intros n; [reflexivity|]. cbn [expandtabs]. destruct (c =? 9)%N eqn:E.
  - apply N.eqb_eq in E. subst c. cbv zeta. rewrite ink_app, ink_blanks. exact (IH _).
  - unfold ink in *. cbn [filter]. destruct (negb (is_space c)); [f_equal|]; apply IH.
Qed.
Lemma ws_space c : is_ws c = true -> is_space c = true.
Proof. unfold is_ws, is_space, between. lia. Qed.
Lemma ink_munge s : ink (munge s) = ink s.
Proof.
  unfold munge. rewrite <- (ink_expand s 0). induction (expandtabs 0 s) as [|c t IH]; [reflexivity|].
  unfold ink in *. cbn [map filter]. destruct (is_ws c) eqn:E.
  - rewrite (ws_space c E). cbn [negb]. change (is_space 32%N) with true. exact IH.
  - destruct (negb (is_space c)); [f_equal|]; exact IH.
Qed.
Lemma ink_concat l : ink (concat l) = concat (map ink l).
Proof. induction l as [|x l IH]; [reflexivity|]. cbn [concat map]. now rewrite ink_app, IH. Qed.
Lemma ink_join l : ink (join_with [NL] l) = ink (concat l).
Proof.
  induction l as [|x [|y l] IH]; [reflexivity| |]; [cbn; now rewrite app_nil_r|].
  change (join_with [NL] (x :: y :: l)) with (x ++ [NL] ++ join_with [NL] (y :: l)). change (concat (x :: y :: l)) with (x ++ concat (y :: l)).
  rewrite !ink_app, IH. reflexivity.
Qed.
Lemma concat_filter (l : list str) : concat (filter (fun c => match c with [] => false | _ => true end) l) = concat l.
Proof. induction l as [|[|c x] l IH]; cbn; [reflexivity|exact IH|now rewrite IH]. Qed.

(** ** One line *)
Lemma fit_concat width : forall chunks n l r, fit width n chunks = (l, r) -> l ++ r = chunks.
Proof.
  induction chunks as [|c chunks IH]; cbn; intros n l r H; [now injection H as <- <-|].
  destruct (n + len c <=? width); [|now injection H as <- <-].
  destruct (fit width (n + len c) chunks) as [l' r'] eqn:E. injection H as <- <-. cbn. now rewrite (IH _ _ _ E).
Qed.
Lemma len_nonneg s : 0 <= len s.
Proof. unfold len. lia. Qed.
Lemma total_nonneg l : 0 <= total l.
Proof. induction l as [|c l IH]; cbn; [lia|]. pose proof (len_nonneg c). unfold total in IH. lia. Qed.
Lemma total_length l : total l = len (concat l).
Proof. induction l as [|c l IH]; [reflexivity|]. unfold total, len in *. cbn. rewrite app_length. lia. Qed.
Lemma fit_total width : forall chunks n l r, fit width n chunks = (l, r) -> l = [] \/ n + total l <= width.
Proof.
  induction chunks as [|c chunks IH]; cbn; intros n l r H; [injection H as <- <-; now left|].
  destruct (n + len c <=? width) eqn:E; [|injection H as <- <-; now left]. apply Z.leb_le in E.
  destruct (fit width (n + len c) chunks) as [l' r'] eqn:F. injection H as <- <-. right. cbn [total fold_right].
  destruct (IH _ _ _ F) as [->|X]; cbn; [lia|]. unfold total in X. lia.
Qed.
Lemma fit_none width c chunks r : fit width 0 (c :: chunks) = ([], r) -> width < len c.
Proof. cbn. destruct (len c <=? width) eqn:E; [destruct (fit _ _ _); discriminate|]. intros _. now apply Z.leb_gt. Qed.
Lemma rfind_lt s : forall n, rfind s = Some n -> (n < length s)%nat.
Proof.
  induction s as [|c s IH]; cbn; [discriminate|]. intros n. destruct (rfind s) as [k|].
  - intros H. injection H as <-. specialize (IH k eq_refl). lia.
  - destruct (c =? 45)%N; [|discriminate]. intros H. injection H as <-. lia.
Qed.
Lemma cut_bounds c space : (cut c space <= space)%nat /\ ((1 <= space)%nat -> (1 <= cut c space)%nat).
Proof.
  unfold cut. destruct (Z.of_nat space <? len c); [|split; lia]. destruct (rfind (firstn space c)) as [h|] eqn:E; [|split; lia].
  destruct (_ && _); [|split; lia]. apply rfind_lt in E. pose proof (firstn_le_length space c). split; lia.
Qed.

Section Wrap.
  Variable width : Z.
  Variable initial_indent subsequent_indent : str.
  Notation indent := (indent initial_indent subsequent_indent).
  Notation one_line := (one_line width initial_indent subsequent_indent).
  Notation wrap_chunks := (wrap_chunks width initial_indent subsequent_indent).

  Definition rest_of (first : bool) (chunks : list str) : list str :=
    match chunks with c :: r => if hollow c && negb first then r else chunks | [] => [] end.
  Lemma rest_ink first chunks : ink (concat (rest_of first chunks)) = ink (concat chunks).
  Proof.
    destruct chunks as [|c r]; [reflexivity|]. cbn [rest_of]. destruct (hollow c) eqn:E; [|reflexivity]. destruct first; [reflexivity|].
    cbn [negb andb concat]. now rewrite ink_app, (ink_hollow c E).
  Qed.
  (** The line before the last blank chunk is dropped *)
  Definition full_line (first : bool) (chunks : list str) : list str * list str :=
    let w := width - len (indent first) in
    let (line, rest) := fit w 0 (rest_of first chunks) in
    match rest with
    | c :: more =>
        if w <? len c then
          let e := cut c (Z.to_nat (if w <? 1 then 1 else w - total line)) in (line ++ [firstn e c], skipn e c :: more)
        else (line, rest)
    | [] => (line, [])
    end.
  Definition trimmed (line : list str) : list str := match rev line with c :: l => if hollow c then rev l else line | [] => [] end.
  Lemma one_line_eq first chunks : one_line first chunks = (trimmed (fst (full_line first chunks)), snd (full_line first chunks)).
  Proof.
    unfold WrapModel.one_line, full_line, trimmed. fold (rest_of first chunks). cbv zeta.
    destruct (fit _ 0 (rest_of first chunks)) as [line rest]. destruct rest as [|c more]; [reflexivity|].
    destruct (_ <? len c); reflexivity.
  Qed.
  Lemma trimmed_ink line : ink (concat (trimmed line)) = ink (concat line).
  Proof.
    unfold trimmed. destruct (rev line) as [|c l] eqn:E.
    - apply (f_equal (@rev str)) in E. rewrite rev_involutive in E. now subst line.
    - destruct (hollow c) eqn:H; [|reflexivity]. apply (f_equal (@rev str)) in E. rewrite rev_involutive in E. cbn [rev] in E. subst line.
      rewrite concat_app, ink_app. cbn [concat]. now rewrite app_nil_r, (ink_hollow c H), app_nil_r.
  Qed.
  Lemma trimmed_length line : (length (concat (trimmed line)) <= length (concat line))%nat.
  Proof.
    unfold trimmed. destruct (rev line) as [|c l] eqn:E; [cbn; lia|]. destruct (hollow c) eqn:H; [|lia].
    apply (f_equal (@rev str)) in E. rewrite rev_involutive in E. cbn [rev] in E. subst line. rewrite concat_app, app_length. lia.
  Qed.
  Lemma full_concat first chunks : let (line, rest) := full_line first chunks in concat line ++ concat rest = concat (rest_of first chunks).
  Proof.
    unfold full_line. cbv zeta. destruct (fit _ 0 (rest_of first chunks)) as [line rest] eqn:F. apply fit_concat in F.
    rewrite <- F, concat_app. destruct rest as [|c more]; [reflexivity|]. destruct (_ <? len c); [|reflexivity].
    rewrite !concat_app. cbn [concat]. rewrite app_nil_r, <- !app_assoc. f_equal. rewrite !app_assoc. now rewrite firstn_skipn.
  Qed.
  Lemma one_ink first chunks line rest : one_line first chunks = (line, rest) -> ink (concat line) ++ ink (concat rest) = ink (concat chunks).
  Proof.
    rewrite one_line_eq. intros H. injection H as <- <-. rewrite trimmed_ink, <- (rest_ink first chunks).
    pose proof (full_concat first chunks) as C. destruct (full_line first chunks) as [l r]. cbn [fst snd]. rewrite <- C. symmetry. apply ink_app.
  Qed.
  Lemma one_width first chunks line rest : one_line first chunks = (line, rest) ->
    len (indent first ++ concat line) <= Z.max width (len (indent first) + 1).
  Proof.
    rewrite one_line_eq. intros H. injection H as <- _. pose proof (trimmed_length (fst (full_line first chunks))) as T.
    unfold len at 1. rewrite app_length.
    enough (X : len (concat (fst (full_line first chunks))) <= Z.max (width - len (indent first)) 1) by (unfold len in *; lia).
    clear T. unfold full_line. cbv zeta. set (w := width - len (indent first)).
    destruct (fit w 0 (rest_of first chunks)) as [l r] eqn:F. apply fit_total in F.
    assert (L : total l <= Z.max w 0) by (destruct F as [->|F]; cbn; lia).
    destruct r as [|c more]; [cbn [fst]; rewrite <- total_length; lia|]. destruct (w <? len c); [|cbn [fst]; rewrite <- total_length; lia].
    cbn [fst]. rewrite concat_app. unfold len. rewrite app_length. cbn [concat]. rewrite app_nil_r.
    pose proof (firstn_le_length (cut c (Z.to_nat (if w <? 1 then 1 else w - total l))) c) as Q.
    destruct (cut_bounds c (Z.to_nat (if w <? 1 then 1 else w - total l))) as [B _].
    rewrite total_length in *. unfold len in *. destruct (w <? 1) eqn:E; [apply Z.ltb_lt in E|apply Z.ltb_ge in E]; rewrite firstn_length; lia.
  Qed.

  (** ** All lines *)
  Hypothesis Hinitial : ink initial_indent = [].
  Hypothesis Hsubsequent : ink subsequent_indent = [].
  Lemma indent_ink first : ink (indent first) = [].
  Proof. destruct first; assumption. Qed.
  Lemma wrap_ink : forall fuel first chunks lines, wrap_chunks fuel first chunks = Ok lines -> ink (concat lines) = ink (concat chunks).
  Proof.
    induction fuel as [|fuel IH]; intros first chunks lines H; destruct chunks as [|c chunks]; cbn [WrapModel.wrap_chunks] in H; try discriminate; try (injection H as <-; reflexivity).
    destruct (one_line first (c :: chunks)) as [line rest] eqn:E. apply one_ink in E. rewrite <- E. destruct line as [|x line].
    - cbn. exact (IH _ _ _ H).
    - destruct (wrap_chunks fuel false rest) as [l|] eqn:W; [|discriminate]. cbn [bindr] in H. injection H as <-. cbn [concat]. rewrite !ink_app, indent_ink.
      cbn [app]. rewrite <- (IH _ _ _ W). reflexivity.
  Qed.
  Lemma wrap_width : forall fuel first chunks lines, wrap_chunks fuel first chunks = Ok lines -> forall l, In l lines ->
    len l <= width \/ (length l <= S (length initial_indent))%nat \/ (length l <= S (length subsequent_indent))%nat.
  Proof.
    induction fuel as [|fuel IH]; intros first chunks lines H l; destruct chunks as [|c chunks]; cbn [WrapModel.wrap_chunks] in H; try discriminate; try (injection H as <-; intros []).
    destruct (one_line first (c :: chunks)) as [line rest] eqn:E. pose proof (one_width _ _ _ _ E) as B.
    destruct line as [|x line]; [exact (IH _ _ _ H l)|].
    destruct (wrap_chunks fuel false rest) as [ls|] eqn:W; [|discriminate]. cbn [bindr] in H. injection H as <-. intros [<-|I].
    - change (concat (x :: line)) with (x ++ concat line) in B. generalize dependent (indent first ++ x ++ concat line). intros y B.
      unfold len in *. destruct first; cbn [WrapModel.indent] in *; lia.
    - exact (IH _ _ _ W l I).
  Qed.
  Lemma wrap_next : forall fuel chunks lines, wrap_chunks fuel false chunks = Ok lines -> Forall (fun l => exists t, l = subsequent_indent ++ t) lines.
  Proof.
    induction fuel as [|fuel IH]; intros chunks lines H; destruct chunks as [|c chunks]; cbn [WrapModel.wrap_chunks] in H; try discriminate; try (injection H as <-; constructor).
    destruct (one_line false (c :: chunks)) as [line rest] eqn:E. destruct line as [|x line]; [exact (IH _ _ H)|].
    destruct (wrap_chunks fuel false rest) as [ls|] eqn:W; [|discriminate]. cbn [bindr] in H. injection H as <-. constructor; [|exact (IH _ _ W)].
    eexists. reflexivity.
  Qed.
  Lemma wrap_first : forall fuel chunks l rest, wrap_chunks fuel true chunks = Ok (l :: rest) ->
    (exists t, l = initial_indent ++ t) /\ Forall (fun l => exists t, l = subsequent_indent ++ t) rest.
  Proof.
    induction fuel as [|fuel IH]; intros chunks l rest H; destruct chunks as [|c chunks]; cbn [WrapModel.wrap_chunks] in H; try discriminate.
    destruct (one_line true (c :: chunks)) as [line r] eqn:E. destruct line as [|x line]; [exact (IH _ _ _ H)|].
    destruct (wrap_chunks fuel false r) as [ls|] eqn:W; [|discriminate]. cbn [bindr] in H. injection H as <- <-.
    split; [eexists; reflexivity|exact (wrap_next _ _ _ W)].
  Qed.

  (** ** The loop ends *)
  Lemma size_cons c l : size (c :: l) = (S (length c) + size l)%nat.
  Proof. reflexivity. Qed.
  Lemma size_app a b : size (a ++ b) = (size a + size b)%nat.
  Proof. induction a as [|c a IH]; [reflexivity|]. cbn [app]. rewrite !size_cons, IH. lia. Qed.
  Lemma hollow_app a b : hollow (a ++ b) = hollow a && hollow b.
  Proof. apply forallb_app. Qed.
  Lemma full_smaller first chunks : (first = true -> match chunks with [] => True | c :: _ => hollow c = false end) -> chunks <> [] ->
    (size (snd (full_line first chunks)) < size chunks)%nat /\
    (trimmed (fst (full_line first chunks)) = [] -> first = true -> match snd (full_line first chunks) with [] => True | c :: _ => hollow c = false end).
  Proof.
    intros Hf Hn. unfold full_line. cbv zeta. set (w := width - len (indent first)).
    destruct (fit w 0 (rest_of first chunks)) as [l r] eqn:F. pose proof (fit_concat _ _ _ _ _ F) as C. pose proof (fit_total _ _ _ _ _ F) as T.
    assert (S0 : (size r <= size chunks)%nat /\ (l <> [] -> (size r < size chunks)%nat) /\
      (l = [] -> (size r < size chunks)%nat \/ exists c more, r = c :: more /\ chunks = c :: more /\ hollow c = false)).
    { assert (X : (size (rest_of first chunks) <= size chunks)%nat).
      { destruct chunks as [|c ch]; [easy|]. cbn [rest_of]. destruct (_ && _); rewrite ?size_cons; lia. }
      rewrite <- C, size_app in X. split; [lia|]. split.
      - intros N. destruct l as [|y l]; [easy|]. rewrite size_cons in X. lia.
      - intros ->. cbn [app] in C. destruct chunks as [|c ch]; [easy|]. cbn [rest_of] in C. destruct (hollow c) eqn:Hc.
        + destruct first; [specialize (Hf eq_refl); congruence|]. cbn [andb negb] in C. subst r. left. rewrite size_cons. lia.
        + cbn [andb] in C. subst r. right. eauto. }
    destruct S0 as (S1 & S2 & S3).
    assert (Y : forall e c more, r = c :: more -> (size (skipn e c :: more) <= size r)%nat).
    { intros e c more ->. rewrite !size_cons, skipn_length. lia. }
    destruct r as [|c more].
    - cbn [fst snd]. split; [|easy]. destruct chunks as [|c ch]; [easy|]. rewrite size_cons. cbn. lia.
    - destruct (w <? len c) eqn:E; cbn [fst snd].
      + specialize (Y (cut c (Z.to_nat (if w <? 1 then 1 else w - total l))) c more eq_refl). split.
        * destruct l as [|y l]; [|specialize (S2 ltac:(discriminate)); lia].
          destruct (S3 eq_refl) as [S4|(c' & m' & Q & -> & Hc)]; [lia|]. injection Q as <- <-.
          destruct (cut_bounds c (Z.to_nat (if w <? 1 then 1 else w - total []))) as [_ B].
          assert (Hl : (1 <= length c)%nat) by (destruct c; [discriminate Hc|cbn; lia]).
          rewrite !size_cons, skipn_length. cbn [total fold_right] in *. destruct (w <? 1) eqn:W; [apply Z.ltb_lt in W|apply Z.ltb_ge in W]; lia.
        * intros Tr ->. unfold trimmed in Tr. rewrite rev_app_distr in Tr. cbn [rev app] in Tr.
          set (e := cut c _) in *. destruct (hollow (firstn e c)) eqn:Hh.
          -- assert (l = []) as -> by (rewrite rev_involutive in Tr; exact Tr).
             cbn [app] in C. destruct chunks as [|c' ch]; [easy|]. specialize (Hf eq_refl). cbn [rest_of] in C. rewrite Hf in C. cbn [andb] in C.
             injection C as -> ->. rewrite <- (firstn_skipn e c'), hollow_app, Hh in Hf. exact Hf.
          -- now apply app_eq_nil in Tr as [_ Tr].
      + apply Z.ltb_ge in E. destruct l as [|y l].
        * exfalso. rewrite <- C in F. cbn [app] in F. apply fit_none in F. lia.
        * split; [apply S2; discriminate|]. intros Tr ->. unfold trimmed in Tr. destruct (rev (y :: l)) as [|z k] eqn:Ry; [apply (f_equal (@length str)) in Ry; rewrite rev_length in Ry; discriminate|].
          destruct (hollow z) eqn:Hz; [|discriminate]. apply (f_equal (@rev str)) in Tr. rewrite rev_involutive in Tr. cbn in Tr. subst k.
          apply (f_equal (@rev str)) in Ry. rewrite rev_involutive in Ry. cbn in Ry. injection Ry as -> ->.
          destruct chunks as [|c' ch]; [easy|]. specialize (Hf eq_refl). cbn [rest_of] in C. rewrite Hf in C. cbn [andb app] in C. injection C as -> _. congruence.
  Qed.
  Lemma wrap_ends : forall fuel first chunks, (size chunks <= fuel)%nat ->
    (first = true -> match chunks with [] => True | c :: _ => hollow c = false end) -> exists lines, wrap_chunks fuel first chunks = Ok lines.
  Proof.
    induction fuel as [|fuel IH]; intros first chunks L H; destruct chunks as [|c chunks]; try (exists []; reflexivity); [rewrite size_cons in L; lia|].
    cbn [WrapModel.wrap_chunks]. rewrite one_line_eq. destruct (full_smaller first (c :: chunks) H ltac:(discriminate)) as [S1 S2].
    destruct (full_line first (c :: chunks)) as [l r]. cbn [fst snd] in *. destruct (trimmed l) as [|x t].
    - apply IH; [lia|]. intros ->. now apply S2.
    - destruct (IH false r) as (ls & E); [lia|discriminate|]. rewrite E. eexists. reflexivity.
  Qed.
End Wrap.

Lemma hollow_concat_first (chunks : list str) c s : concat chunks = c :: s -> is_space c = false ->
  match filter (fun c => match c with [] => false | _ => true end) chunks with [] => True | c :: _ => hollow c = false end.
Proof.
  induction chunks as [|[|x k] chunks IH]; cbn; [easy|exact IH|]. intros H. injection H as -> _. intros ->. reflexivity.
Qed.
Lemma munge_first c s : is_space c = false -> exists s', munge (c :: s) = c :: s'.
Proof.
  intros H. unfold munge. cbn [expandtabs]. destruct (c =? 9)%N eqn:E; [apply N.eqb_eq in E; subst c; discriminate H|].
  cbn [map]. destruct (is_ws c) eqn:W; [apply ws_space in W; congruence|]. eauto.
Qed.
(** A text that does not begin with a blank is filled *)
Lemma wrap_filled split width first next text : Splits split -> 0 < width -> ink first = [] -> ink next = [] ->
  match text with [] => True | c :: _ => is_space c = false end ->
  exists lines, wrap split width first next text = Ok lines /\ Filled width first next text lines.
Proof.
  intros S W H1 H2 H. unfold wrap. destruct (width <=? 0) eqn:E; [apply Z.leb_le in E; lia|].
  set (chunks := filter (fun c => match c with [] => false | _ => true end) (split (munge text))).
  assert (C : concat chunks = munge text) by (unfold chunks; rewrite concat_filter; apply S).
  destruct (wrap_ends width first next (size chunks) true chunks (le_n _)) as (lines & L).
  { intros _. unfold chunks. destruct text as [|c s].
    - pose proof (S (munge [])) as S'. change (munge []) with (@nil char) in *.
      assert (Z : filter (fun c => match c with [] => false | _ => true end) (split []) = []).
      { clear -S'. induction (split []) as [|[|x k] l IH]; cbn in *; [reflexivity|now apply IH|discriminate]. }
      unfold str in *. now rewrite Z.
    - destruct (munge_first c s H) as (s' & M). apply (hollow_concat_first (split (munge (c :: s))) c s'); [|exact H]. now rewrite S, M. }
  exists lines. split; [exact L|]. split.
  - rewrite (wrap_ink _ _ _ H1 H2 _ _ _ _ L). now rewrite C, ink_munge.
  - intros l rest ->. exact (proj1 (wrap_first _ _ _ _ _ _ _ L)).
  - intros l rest ->. exact (proj2 (wrap_first _ _ _ _ _ _ _ L)).
  - intros l I. exact (wrap_width _ _ _ _ _ _ _ L l I).
Qed.
Lemma wrap_narrow split width first next text : width <= 0 -> wrap split width first next text = Err ValueError.
Proof. intros H. unfold wrap. apply Z.leb_le in H. now rewrite H. Qed.
Lemma fill_filled split width first next text :
  Splits split -> (0 < width)%Z -> ink first = [] -> ink next = [] ->
  (match text with [] => True | c :: _ => is_space c = false end) ->
  exists lines, fill split width first next text = Ok (join_with [NL] lines) /\ Filled width first next text lines.
Proof.
  intros S W F N T. destruct (wrap_filled split width first next text S W F N T) as (lines & E & X).
  exists lines. split; [unfold fill; now rewrite E|exact X].
Qed.
(** * Words that fit on a line are not broken *)
Lemma drop_last_in (c : str) line : hollow c = false -> In c line ->
  In c (match rev line with x :: l => if hollow x then rev l else line | [] => [] end).
Proof.
  intros N H. apply in_rev in H. destruct (rev line) as [|x l] eqn:E; [destruct H|].
  destruct (hollow x) eqn:X.
  - destruct H as [->|H]; [congruence|]. now apply in_rev in H.
  - apply (in_rev line). rewrite E. exact H.
Qed.
Lemma one_line_in width initial next first chunks (c : str) line rest : one_line width initial next first chunks = (line, rest) ->
  hollow c = false -> len c <= width - len (indent initial next first) -> In c chunks -> In c line \/ In c rest.
Proof.
  unfold one_line. intros H N L I. set (w := width - len (indent initial next first)) in *.
  assert (J : In c (match chunks with x :: r => if hollow x && negb first then r else chunks | [] => [] end)).
  { destruct chunks as [|x r]; [destruct I|]. destruct (hollow x && negb first) eqn:X; [|exact I].
    destruct I as [->|I]; [rewrite N in X; discriminate|exact I]. }
  set (ch := match chunks with x :: r => if hollow x && negb first then r else chunks | [] => [] end) in *. clearbody ch. clear I.
  destruct (fit w 0 ch) as [l r] eqn:F. pose proof (fit_concat _ _ _ _ _ F) as E. subst ch. apply in_app_or in J.
  destruct r as [|x more].
  - injection H as <- <-. left. apply drop_last_in; [exact N|]. destruct J as [J|[]]; exact J.
  - destruct (w <? len x) eqn:X; injection H as <- <-.
    + destruct J as [J|[->|J]].
      * left. apply drop_last_in; [exact N|]. apply in_or_app. now left.
      * apply Z.ltb_lt in X. lia.
      * right. now right.
    + destruct J as [J|J]; [left; now apply drop_last_in|right; exact J].
Qed.
Lemma wrap_chunks_in width initial next (c : str) : hollow c = false -> len c <= width - len initial -> len c <= width - len next ->
  forall fuel first chunks lines, wrap_chunks width initial next fuel first chunks = Ok lines -> In c chunks ->
  exists u v, In (u ++ c ++ v) lines.
Proof.
  intros N L1 L2. induction fuel as [|fuel IH]; intros first chunks lines H I.
  - destruct chunks; [destruct I|discriminate].
  - destruct chunks as [|x chunks]; [destruct I|]. cbn [wrap_chunks] in H.
    destruct (one_line width initial next first (x :: chunks)) as [line rest] eqn:O.
    destruct (one_line_in _ _ _ _ _ c _ _ O N) as [J|J]; [destruct first; assumption|exact I| |].
    + destruct line as [|y line]; [destruct J|].
      destruct (wrap_chunks width initial next fuel false rest) as [l|] eqn:W; [|discriminate]. injection H as <-.
      apply in_split in J as (a & b & J). exists (indent initial next first ++ concat a), (concat b). left. change (y ++ concat line) with (concat (y :: line)). rewrite J, concat_app. cbn [concat]. now rewrite <- !app_assoc.
    + destruct line as [|y line]; [exact (IH _ _ _ H J)|].
      destruct (wrap_chunks width initial next fuel false rest) as [l|] eqn:W; [|discriminate]. injection H as <-.
      destruct (IH _ _ _ W J) as (u & v & K). exists u, v. now right.
Qed.
Lemma words_whole split width first next text lines (c : str) : wrap split width first next text = Ok lines ->
  In c (split (munge text)) -> (exists x, In x c /\ is_space x = false) ->
  Z.of_nat (length c) + Z.of_nat (length first) <= width -> Z.of_nat (length c) + Z.of_nat (length next) <= width ->
  exists u v, In (u ++ c ++ v) lines.
Proof.
  unfold wrap. intros H I (x & X & Y) L1 L2. destruct (width <=? 0); [discriminate|].
  assert (N : hollow c = false).
  { unfold hollow. apply not_true_iff_false. intros K. rewrite forallb_forall in K. rewrite (K x X) in Y. discriminate. }
  eapply wrap_chunks_in; [exact N| | |exact H|].
  - unfold len. lia.
  - unfold len. lia.
  - apply filter_In. split; [exact I|]. destruct c; [destruct X|reflexivity].
Qed.
Lemma expandtabs_id s : forall n, ~ In 9%N s -> expandtabs n s = s.
Proof.
  induction s as [|c s IH]; intros n H; [reflexivity|]. cbn [expandtabs].
  destruct (N.eqb_spec c 9) as [->|E]; [destruct H; now left|]. f_equal. apply IH. intros K. apply H. now right.
Qed.
Lemma munge_id s : (forall x, In x s -> is_space x = true -> x = 32%N) -> munge s = s.
Proof.
  intros H. unfold munge. rewrite expandtabs_id.
  - rewrite <- (map_id s) at 2. apply map_ext_in. intros x I. destruct (is_ws x) eqn:E; [|reflexivity]. symmetry. apply H; [exact I|now apply ws_space].
  - intros I. specialize (H _ I eq_refl). discriminate.
Qed.
Lemma fill_whole split width first next text :
  Splits split -> (0 < width)%Z -> ink first = [] -> ink next = [] ->
  (match text with [] => True | c :: _ => is_space c = false end) -> (forall x, In x text -> is_space x = true -> x = 32%N) ->
  exists lines, fill split width first next text = Ok (join_with [NL] lines) /\ Filled width first next text lines /\
  forall c, In c (split text) -> (exists x, In x c /\ is_space x = false) ->
    Z.of_nat (length c) + Z.of_nat (length first) <= width -> Z.of_nat (length c) + Z.of_nat (length next) <= width ->
    exists u v, In (u ++ c ++ v) lines.
Proof.
  intros SP W F N T B. destruct (wrap_filled split width first next text SP W F N T) as (lines & E & X).
  exists lines. split; [unfold fill; now rewrite E|]. split; [exact X|]. intros c I. rewrite <- (munge_id text B) in I. now apply (words_whole split width first next text).
Qed.
(** * A word that is too long is broken after a hyphen *)
Lemma rfind_none s : rfind s = None -> ~ In 45%N s.
Proof.
  induction s as [|c s IH]; cbn; [intros _ []|]. destruct (rfind s) as [n|]; [discriminate|]. destruct (N.eqb_spec c 45) as [->|E]; [discriminate|].
  intros _ [K|K]; [congruence|]. now apply IH.
Qed.
Lemma rfind_some s : forall n, rfind s = Some n -> exists a b, s = a ++ 45%N :: b /\ ~ In 45%N b /\ length a = n.
Proof.
  induction s as [|c s IH]; intros n; cbn; [discriminate|]. destruct (rfind s) as [k|] eqn:E.
  - intros [= <-]. destruct (IH k eq_refl) as (a & b & -> & N & L). exists (c :: a), b. cbn. now rewrite L.
  - destruct (N.eqb_spec c 45) as [->|X]; [|discriminate]. intros [= <-]. exists [], s. split; [reflexivity|]. split; [now apply rfind_none|reflexivity].
Qed.
Lemma last_unique (x : N) a b : forall a' b', a ++ x :: b = a' ++ x :: b' -> ~ In x b -> ~ In x b' -> a = a' /\ b = b'.
Proof.
  induction a as [|c a IH]; intros [|c' a'] b' E N N'; cbn in E.
  - inversion E. auto.
  - inversion E; subst. exfalso. apply N. apply in_or_app. right. now left.
  - inversion E; subst. exfalso. apply N'. apply in_or_app. right. now left.
  - injection E as E1 E2. subst c'. destruct (IH a' b' E2 N N') as [-> ->]. auto.
Qed.
Lemma other_than a : existsb (fun c => negb (c =? 45)%N) a = true <-> exists x, In x a /\ x <> 45%N.
Proof.
  rewrite existsb_exists. split; intros (x & I & K); exists x; split; auto.
  - now apply N.eqb_neq, negb_true_iff.
  - now apply negb_true_iff, N.eqb_neq.
Qed.
Lemma cut_long c space : Z.of_nat space < len c ->
  (forall a b, firstn space c = a ++ 45%N :: b -> ~ In 45%N b -> (exists x, In x a /\ x <> 45%N) -> firstn (cut c space) c = a ++ [45%N]) /\
  ((forall a b x, firstn space c = a ++ 45%N :: b -> In x a -> x = 45%N) -> firstn (cut c space) c = firstn space c).
Proof.
  intros L. unfold cut. apply Z.ltb_lt in L. rewrite L. clear L.
  assert (P : forall a b, firstn space c = a ++ b -> firstn (length a) c = a).
  { intros a b E. assert (length a <= space)%nat by (pose proof (firstn_le_length space c) as Q; rewrite E, app_length in Q; lia).
    replace (length a) with (Nat.min (length a) space) by lia. rewrite <- firstn_firstn, E, firstn_app, Nat.sub_diag, firstn_all. cbn. apply app_nil_r. }
  destruct (rfind (firstn space c)) as [h|] eqn:E.
  - destruct (rfind_some _ _ E) as (a & b & F & N & <-). pose proof (P a _ F) as PA. match goal with |- context [existsb ?f ?z] => replace z with a by (symmetry; exact PA) end. clear PA. split.
    + intros a' b' F' N' X. rewrite F in F'. destruct (last_unique _ _ _ _ _ F' N N') as [-> ->].
      assert (0 <? length a' = true)%nat as -> by (destruct a'; [destruct X as (x & [] & _)|reflexivity]).
      apply other_than in X. rewrite X. cbn [andb]. specialize (P (a' ++ [45%N]) b'). rewrite <- app_assoc in P. specialize (P F).
      rewrite app_length in P. cbn in P. now rewrite Nat.add_1_r in P.
    + intros X. destruct (existsb _ a) eqn:Y; [|now rewrite andb_false_r]. apply other_than in Y as (x & I & Y). now destruct (Y (X a b x F I)).
  - split; [|reflexivity]. intros a b F. destruct (rfind_none _ E). rewrite F. apply in_or_app. right. now left.
Qed.
Lemma long_word split width next text :
  Splits split -> 0 < width -> ink next = [] -> split text = [text] -> (forall x, In x text -> is_space x = false) -> width < Z.of_nat (length text) ->
  exists line rest, fill split width [] next text = Ok (join_with [NL] (line :: rest)) /\
  (forall a b, firstn (Z.to_nat width) text = a ++ 45%N :: b -> ~ In 45%N b -> (exists x, In x a /\ x <> 45%N) -> line = a ++ [45%N]) /\
  ((forall a b x, firstn (Z.to_nat width) text = a ++ 45%N :: b -> In x a -> x = 45%N) -> line = firstn (Z.to_nat width) text).
Proof.
  intros SP W N ST SC L.
  assert (T : match text with [] => True | c :: _ => is_space c = false end) by (destruct text; [exact I|apply SC; now left]).
  destruct (wrap_filled split width [] next text SP W eq_refl N T) as (lines & E & _).
  assert (M : munge text = text) by (apply munge_id; intros x I K; rewrite (SC x I) in K; discriminate).
  destruct (cut_long text (Z.to_nat width)) as [C1 C2]; [unfold len; lia|].
  assert (Q := E). unfold wrap in Q. rewrite M, ST in Q. destruct (width <=? 0) eqn:W0; [apply Z.leb_le in W0; lia|].
  destruct text as [|c t] eqn:TT; [cbn in L; lia|]. rewrite <- TT in *.
  assert (FI : filter (fun c : list char => match c with [] => false | _ => true end) [text] = [text]) by (subst text; reflexivity).
  rewrite FI in Q. unfold size in Q. cbn [fold_right Nat.add wrap_chunks] in Q.
  assert (O : one_line width [] next true [text] = ([firstn (cut text (Z.to_nat width)) text], [skipn (cut text (Z.to_nat width)) text])).
  { assert (H : forall k, (1 <= k)%nat -> hollow (firstn k text) = false).
    { intros [|k] K; [lia|]. subst text. cbn [firstn hollow]. unfold hollow. cbn. now rewrite (SC c (or_introl eq_refl)). }
    unfold one_line. rewrite andb_false_r. cbn [indent]. change (len []) with 0. rewrite Z.sub_0_r. cbn [fit].
    assert (0 + len text <=? width = false) as -> by (apply Z.leb_gt; unfold len; lia).
    assert (width <? len text = true) as -> by (apply Z.ltb_lt; unfold len; lia).
    assert (width <? 1 = false) as -> by (apply Z.ltb_ge; lia).
    change (total []) with 0. rewrite Z.sub_0_r. cbn [app rev]. rewrite H; [reflexivity|]. apply cut_bounds. lia. }
  rewrite O in Q. destruct (wrap_chunks width [] next _ false _) as [l|]; [|discriminate]. injection Q as Q.
  exists (firstn (cut text (Z.to_nat width)) text), l. split; [|split; [exact C1|exact C2]].
  unfold fill. rewrite E. cbn. rewrite <- Q. cbn. rewrite app_nil_r. reflexivity.
Qed.
