(** Proofs about the token list parser, the optimiser and the matcher. *)
From Coq Require Import List Bool NArith ZArith Lia ZifyBool Permutation Sorting.Sorted.
From Verif Require Import Py SortLib GrammarSpec ParserModel.
Import ListNotations.

(** ** Keywords *)
Lemma upper_c_AZ w c : is_upper_AZ w = true -> (upper_c c = w <-> c = w \/ c = (w + 32)%N).
Proof.
  intros H. unfold upper_c, is_lower_az, is_upper_AZ, between in *.
  destruct ((97 <=? c) && (c <=? 122) || (224 <=? c) && (c <=? 254) && negb (c =? 247))%N eqn:E; lia.
Qed.
Lemma upper_spelled W t : forallb is_upper_AZ W = true -> (upper t = W <-> spelled W t).
Proof.
  revert t; induction W as [|w W IH]; intros [|c t] H; cbn in *.
  - split; [constructor|easy].
  - split; [easy|]. inversion 1.
  - split; [easy|]. inversion 1.
  - apply andb_true_iff in H as [Hw HW]. split.
    + intros E. injection E as E1 E2. constructor; [now apply upper_c_AZ|now apply IH].
    + inversion 1; subst. f_equal; [now apply upper_c_AZ|now apply IH].
Qed.
Lemma AND_iff t : str_eqb (upper t) ($"AND") = true <-> is_AND t.
Proof. rewrite str_eqb_eq. now apply upper_spelled. Qed.
Lemma OR_iff t : str_eqb (upper t) ($"OR") = true <-> is_OR t.
Proof. rewrite str_eqb_eq. now apply upper_spelled. Qed.
Lemma NOT_iff t : str_eqb (upper t) ($"NOT") = true <-> is_NOT t.
Proof. rewrite str_eqb_eq. now apply upper_spelled. Qed.
Lemma open_iff t : str_in t OPENING_BRACKETS = true <-> is_open t.
Proof. rewrite str_in_iff. unfold is_open. cbn. intuition. Qed.
Lemma close_iff t : str_in t CLOSING_BRACKETS = true <-> is_close t.
Proof. rewrite str_in_iff. unfold is_close. cbn. intuition. Qed.

Lemma bool_false_iff (b : bool) (P : Prop) : (b = true <-> P) -> (b = false <-> ~ P).
Proof. intros H. destruct b; intuition congruence. Qed.

Lemma upper_c_punct k c : is_upper_AZ k = false -> between 192 222 k = false ->
  is_lower_az k = false -> between 224 254 k = false -> upper_c c = k <-> c = k.
Proof.
  unfold upper_c, is_lower_az, is_upper_AZ, between. intros.
  destruct ((97 <=? c) && (c <=? 122) || (224 <=? c) && (c <=? 254) && negb (c =? 247))%N eqn:E; lia.
Qed.
Lemma upper_punct W t :
  forallb (fun k => negb (is_upper_AZ k || between 192 222 k || is_lower_az k || between 224 254 k)) W = true ->
  upper t = W <-> t = W.
Proof.
  revert t; induction W as [|w W IH]; intros [|c t] H; cbn in *; try easy.
  apply andb_true_iff in H as [Hw HW].
  rewrite negb_true_iff, !orb_false_iff in Hw. destruct Hw as [[[? ?] ?] ?].
  split.
  - intros E. injection E as E1 E2. f_equal; [now apply (upper_c_punct w)|now apply IH].
  - intros E. injection E as E1 E2. f_equal; [now apply upper_c_punct|now apply IH].
Qed.
Lemma open_upper_iff t : str_in (upper t) OPENING_BRACKETS = true <-> is_open t.
Proof.
  rewrite str_in_iff. unfold is_open, OPENING_BRACKETS. cbn [In].
  rewrite <- (upper_punct ($"(") t), <- (upper_punct ($"{{") t) by reflexivity. intuition.
Qed.
Lemma close_upper_iff t : str_in (upper t) CLOSING_BRACKETS = true <-> is_close t.
Proof.
  rewrite str_in_iff. unfold is_close, CLOSING_BRACKETS. cbn [In].
  rewrite <- (upper_punct ($")") t), <- (upper_punct ($"}}") t) by reflexivity. intuition.
Qed.
Lemma bad_upper_iff t :
  str_in (upper t) ([$"AND"; $"OR"; $"NOT"] ++ CLOSING_BRACKETS) = true
  <-> is_AND t \/ is_OR t \/ is_NOT t \/ is_close t.
Proof.
  rewrite str_in_iff, in_app_iff.
  rewrite <- (str_in_iff _ CLOSING_BRACKETS), close_upper_iff.
  cbn [In]. rewrite <- AND_iff, <- OR_iff, <- NOT_iff, !str_eqb_eq. intuition.
Qed.

Lemma spelled_len W t : spelled W t -> length t = length W.
Proof. induction 1; cbn; congruence. Qed.
Lemma open_not_AND t : is_open t -> ~ is_AND t.
Proof. intros [->| ->] H; apply spelled_len in H; discriminate. Qed.
Lemma open_not_OR t : is_open t -> ~ is_OR t.
Proof.
  intros [->| ->] H; pose proof (spelled_len _ _ H) as L; try discriminate.
  inversion H as [|? ? ? ? K]; subst. cbn in K. destruct K; discriminate.
Qed.
Lemma open_not_NOT t : is_open t -> ~ is_NOT t.
Proof. intros [->| ->] H; apply spelled_len in H; discriminate. Qed.
Lemma open_not_close t : is_open t -> ~ is_close t.
Proof. intros [->| ->] [H|H]; discriminate. Qed.
Lemma close_not_AND t : is_close t -> ~ is_AND t.
Proof. intros [->| ->] H; apply spelled_len in H; discriminate. Qed.
Lemma close_not_OR t : is_close t -> ~ is_OR t.
Proof.
  intros [->| ->] H; pose proof (spelled_len _ _ H) as L; try discriminate.
  inversion H as [|? ? ? ? K]; subst. cbn in K. destruct K; discriminate.
Qed.
Lemma close_not_NOT t : is_close t -> ~ is_NOT t.
Proof. intros [->| ->] H; apply spelled_len in H; discriminate. Qed.
Lemma AND_not_OR t : is_AND t -> ~ is_OR t.
Proof. intros H K. apply spelled_len in H, K. rewrite H in K. discriminate. Qed.
Lemma OR_not_NOT t : is_OR t -> ~ is_NOT t.
Proof. intros H K. apply spelled_len in H, K. rewrite H in K. discriminate. Qed.
Lemma AND_not_NOT t : is_AND t -> ~ is_NOT t.
Proof.
  intros H K. inversion H as [|? ? ? ? E]; subst. inversion K as [|? ? ? ? E']; subst.
  destruct E, E'; subst; discriminate.
Qed.

(** The classification the parser computes. *)
Inductive tclass := TOpen | TClose | TAnd | TOr | TNot | TTest.
Definition classify (t : str) : tclass :=
  if str_in t OPENING_BRACKETS then TOpen
  else if str_in t CLOSING_BRACKETS then TClose
  else if str_eqb (upper t) ($"AND") then TAnd
  else if str_eqb (upper t) ($"OR") then TOr
  else if str_eqb (upper t) ($"NOT") then TNot else TTest.

Lemma classify_spec t :
  match classify t with
  | TOpen => is_open t | TClose => is_close t | TAnd => is_AND t
  | TOr => is_OR t | TNot => is_NOT t | TTest => is_test t
  end.
Proof.
  unfold classify.
  destruct (str_in t OPENING_BRACKETS) eqn:E1; [now apply open_iff|].
  destruct (str_in t CLOSING_BRACKETS) eqn:E2; [now apply close_iff|].
  destruct (str_eqb (upper t) _) eqn:E3; [now apply AND_iff|].
  destruct (str_eqb (upper t) ($"OR")) eqn:E4; [now apply OR_iff|].
  destruct (str_eqb (upper t) ($"NOT")) eqn:E5; [now apply NOT_iff|].
  apply (bool_false_iff _ _ (open_iff t)) in E1.
  apply (bool_false_iff _ _ (close_iff t)) in E2.
  apply (bool_false_iff _ _ (AND_iff t)) in E3.
  apply (bool_false_iff _ _ (OR_iff t)) in E4.
  apply (bool_false_iff _ _ (NOT_iff t)) in E5.
  unfold is_test. tauto.
Qed.
Lemma classify_open t : is_open t -> classify t = TOpen.
Proof. intros H. unfold classify. now rewrite (proj2 (open_iff t)). Qed.
Lemma classify_close t : is_close t -> classify t = TClose.
Proof.
  intros H. pose proof (classify_spec t) as K. destruct (classify t); try reflexivity; exfalso.
  - now apply (open_not_close t). - now apply (close_not_AND t).
  - now apply (close_not_OR t). - now apply (close_not_NOT t). - unfold is_test in K; tauto.
Qed.
Lemma classify_AND t : is_AND t -> classify t = TAnd.
Proof.
  intros H. pose proof (classify_spec t) as K. destruct (classify t); try reflexivity; exfalso.
  - now apply (open_not_AND t). - now apply (close_not_AND t).
  - now apply (AND_not_OR t). - now apply (AND_not_NOT t). - unfold is_test in K; tauto.
Qed.
Lemma classify_OR t : is_OR t -> classify t = TOr.
Proof.
  intros H. pose proof (classify_spec t) as K. destruct (classify t); try reflexivity; exfalso.
  - now apply (open_not_OR t). - now apply (close_not_OR t).
  - now apply (AND_not_OR t). - now apply (OR_not_NOT t). - unfold is_test in K; tauto.
Qed.
Lemma classify_NOT t : is_NOT t -> classify t = TNot.
Proof.
  intros H. pose proof (classify_spec t) as K. destruct (classify t); try reflexivity; exfalso.
  - now apply (open_not_NOT t). - now apply (close_not_NOT t).
  - now apply (AND_not_NOT t). - now apply (OR_not_NOT t). - unfold is_test in K; tauto.
Qed.
Lemma classify_test t : is_test t -> classify t = TTest.
Proof.
  intros H. pose proof (classify_spec t) as K. destruct (classify t); try reflexivity;
  unfold is_test in H; tauto.
Qed.

Section P.
  Context {T : Type} (pt : str -> res T).
  Notation node := (node T).

  (** One step of the parser in terms of the token classes, without fuel. *)
  Definition step_eqn (rec : list str -> list (list node) -> list node -> res (list str * seqs T))
    (tokens : list str) (d : list (list node)) (c : list node) : res (list str * seqs T) :=
    let group k ts d c :=
      do '(ts', sub) <- rec ts [] [];
      match ts' with
      | [] => Err ParserError
      | _ :: ts'' => rec ts'' d (c ++ [close_seqs k sub])
      end in
    match tokens with
    | [] => if negb (is_nil d) && existsb is_nil (d ++ [c]) then Err ParserError else Ok ([], (d, c))
    | t :: ts =>
        match classify t with
        | TOpen => group KOr ts d c
        | TClose => if is_nil c then Err ParserError else Ok (t :: ts, (d, c))
        | TAnd => rec ts d c
        | TOr => rec ts (d ++ [c]) []
        | TNot =>
            match ts with
            | [] => Err ParserError
            | n :: ts' =>
                match classify n with
                | TOpen => group KNot ts' d c
                | TTest => do x <- pt n; rec ts' d (c ++ [Sub KNot [Sub KAnd [Leaf x]]])
                | _ => Err ParserError
                end
            end
        | TTest => do x <- pt t; rec ts d (c ++ [Leaf x])
        end
    end.

  Lemma classify_upper n :
    (if str_in (upper n) OPENING_BRACKETS then TOpen
     else if str_in (upper n) ([$"AND"; $"OR"; $"NOT"] ++ CLOSING_BRACKETS) then TAnd else TTest)
    = match classify n with TOpen => TOpen | TTest => TTest | _ => TAnd end.
  Proof.
    pose proof (classify_spec n) as K.
    destruct (str_in (upper n) OPENING_BRACKETS) eqn:E.
    - apply open_upper_iff, classify_open in E. now rewrite E.
    - apply (bool_false_iff _ _ (open_upper_iff n)) in E.
      destruct (str_in (upper n) _) eqn:E2.
      + apply bad_upper_iff in E2.
        destruct (classify n); try reflexivity; [tauto|].
        unfold is_test in K. tauto.
      + apply (bool_false_iff _ _ (bad_upper_iff n)) in E2.
        destruct (classify n); try reflexivity; tauto.
  Qed.

  Lemma parse_sequence_step f tokens d c :
    parse_sequence pt (S f) tokens d c = step_eqn (parse_sequence pt f) tokens d c.
  Proof.
    cbn [parse_sequence]. unfold step_eqn. destruct tokens as [|t ts]; [reflexivity|].
    unfold classify at 1.
    destruct (str_in t OPENING_BRACKETS); [reflexivity|].
    destruct (str_in t CLOSING_BRACKETS); [reflexivity|].
    destruct (str_eqb (upper t) ($"AND")); [reflexivity|].
    destruct (str_eqb (upper t) ($"OR")); [reflexivity|].
    destruct (str_eqb (upper t) ($"NOT")); [|reflexivity].
    destruct ts as [|n ts]; [reflexivity|].
    pose proof (classify_upper n) as K.
    destruct (str_in (upper n) OPENING_BRACKETS).
    - destruct (classify n); try discriminate; reflexivity.
    - destruct (str_in (upper n) _).
      + destruct (classify n); try discriminate; reflexivity.
      + destruct (classify n); try discriminate; reflexivity.
  Qed.

  Lemma parse_sequence_len f tokens d c rest s :
    parse_sequence pt f tokens d c = Ok (rest, s) -> length rest <= length tokens.
  Proof.
    revert tokens d c rest s; induction f as [|f IH]; intros tokens d c rest s; [discriminate|].
    rewrite parse_sequence_step. unfold step_eqn.
    assert (G : forall k ts d c,
      bindr (parse_sequence pt f ts [] []) (fun x => let (ts', sub) := x in
        match ts' with [] => Err ParserError
        | _ :: ts'' => parse_sequence pt f ts'' d (c ++ [close_seqs k sub]) end) = Ok (rest, s)
      -> length rest <= length ts).
    { intros k ts d' c'. destruct (parse_sequence pt f ts [] []) as [[ts' sub]|] eqn:E; [|discriminate].
      cbn. apply IH in E. destruct ts' as [|x ts'']; [discriminate|]. intros H. apply IH in H.
      cbn in E. lia. }
    destruct tokens as [|t ts].
    - destruct (_ && _); [discriminate|]. now intros [= <- <-].
    - destruct (classify t).
      + intros H. apply G in H. cbn. lia.
      + destruct (is_nil c); [discriminate|]. now intros [= <- <-].
      + intros H. apply IH in H. cbn. lia.
      + intros H. apply IH in H. cbn. lia.
      + destruct ts as [|n ts]; [discriminate|].
        destruct (classify n); try discriminate.
        * intros H. apply G in H. cbn. lia.
        * destruct (pt n); [|discriminate]. cbn. intros H. apply IH in H. lia.
      + destruct (pt t); [|discriminate]. cbn. intros H. apply IH in H. lia.
  Qed.

  Lemma parse_sequence_indep f1 f2 tokens d c :
    length tokens < f1 -> length tokens < f2 ->
    parse_sequence pt f1 tokens d c = parse_sequence pt f2 tokens d c.
  Proof.
    revert f2 tokens d c; induction f1 as [|f1 IH]; intros f2 tokens d c H1 H2; [lia|].
    destruct f2 as [|f2]; [lia|].
    rewrite !parse_sequence_step. unfold step_eqn.
    assert (G : forall k ts d c, length ts < f1 -> length ts < f2 ->
      bindr (parse_sequence pt f1 ts [] []) (fun x => let (ts', sub) := x in
        match ts' with [] => Err ParserError
        | _ :: ts'' => parse_sequence pt f1 ts'' d (c ++ [close_seqs k sub]) end) =
      bindr (parse_sequence pt f2 ts [] []) (fun x => let (ts', sub) := x in
        match ts' with [] => Err ParserError
        | _ :: ts'' => parse_sequence pt f2 ts'' d (c ++ [close_seqs k sub]) end)).
    { intros k ts d' c' L1 L2. rewrite (IH f2 ts) by assumption.
      destruct (parse_sequence pt f2 ts [] []) as [[ts' sub]|] eqn:E; [|reflexivity].
      cbn. apply parse_sequence_len in E. destruct ts' as [|x ts'']; [reflexivity|].
      cbn in E. apply IH; lia. }
    destruct tokens as [|t ts]; [reflexivity|]. cbn in H1, H2.
    destruct (classify t); try reflexivity.
    - apply G; lia.
    - apply IH; lia.
    - apply IH; lia.
    - destruct ts as [|n ts]; [reflexivity|]. cbn in H1, H2.
      destruct (classify n); try reflexivity.
      + apply G; lia.
      + destruct (pt n); [|reflexivity]. apply IH; lia.
    - destruct (pt t); [|reflexivity]. apply IH; lia.
  Qed.

  (** The parser with enough fuel. *)
  Definition ps tokens d c := parse_sequence pt (S (length tokens)) tokens d c.
  Lemma ps_eqn tokens d c : ps tokens d c = step_eqn ps tokens d c.
  Proof.
    unfold ps at 1. rewrite parse_sequence_step. unfold step_eqn.
    assert (G : forall k ts d c, length ts < length tokens ->
      bindr (parse_sequence pt (length tokens) ts [] []) (fun x => let (ts', sub) := x in
        match ts' with [] => Err ParserError
        | _ :: ts'' => parse_sequence pt (length tokens) ts'' d (c ++ [close_seqs k sub]) end) =
      bindr (ps ts [] []) (fun x => let (ts', sub) := x in
        match ts' with [] => Err ParserError
        | _ :: ts'' => ps ts'' d (c ++ [close_seqs k sub]) end)).
    { intros k ts d' c' L. unfold ps at 1.
      rewrite (parse_sequence_indep (length tokens) (S (length ts))) by lia.
      destruct (parse_sequence pt (S (length ts)) ts [] []) as [[ts' sub]|] eqn:E; [|reflexivity].
      cbn [bindr]. apply parse_sequence_len in E. destruct ts' as [|x ts'']; [reflexivity|].
      cbn [length] in E. unfold ps. apply parse_sequence_indep; lia. }
    destruct tokens as [|t ts]; [reflexivity|]. cbn [length] in *.
    assert (I : forall ts' d c, length ts' <= length ts ->
      parse_sequence pt (S (length ts)) ts' d c = ps ts' d c)
      by (intros; apply parse_sequence_indep; lia).
    destruct (classify t); try reflexivity.
    - apply G; lia.
    - destruct ts as [|n ts]; [reflexivity|].
      destruct (classify n); try reflexivity.
      + apply G; cbn; lia.
      + destruct (pt n); [|reflexivity]. apply I; cbn; lia.
  Qed.
  Lemma ps_len tokens d c rest s : ps tokens d c = Ok (rest, s) -> length rest <= length tokens.
  Proof. apply parse_sequence_len. Qed.

  (** The fuel used by [parse] is always sufficient. *)
  Lemma ps_fuel (Hpt : forall t, pt t <> Err OutOfFuel) tokens d c : ps tokens d c <> Err OutOfFuel.
  Proof.
    remember (length tokens) as n eqn:Hn. assert (L : length tokens <= n) by lia. clear Hn.
    revert tokens L d c; induction n as [|n IH]; intros tokens L d c;
      rewrite ps_eqn; unfold step_eqn.
    - destruct tokens; [|cbn in L; lia]. now destruct (_ && _).
    - assert (G : forall k ts d c, length ts <= n ->
        bindr (ps ts [] []) (fun x => let (ts', sub) := x in
          match ts' with [] => Err ParserError
          | _ :: ts'' => ps ts'' d (c ++ [close_seqs k sub]) end) <> Err OutOfFuel).
      { intros k ts d' c' Lt. destruct (ps ts [] []) as [[ts' sub]|e] eqn:E.
        - cbn [bindr]. apply ps_len in E. destruct ts' as [|x ts'']; [easy|]. apply IH.
          cbn [length] in E. lia.
        - cbn. intros [= ->]. eapply IH; eauto. }
      destruct tokens as [|t ts]; [now destruct (_ && _)|]. cbn in L.
      destruct (classify t).
      + apply G; lia.
      + now destruct (is_nil c).
      + apply IH; lia.
      + apply IH; lia.
      + destruct ts as [|m ts]; [easy|]. cbn in L. destruct (classify m); try easy.
        * apply G; lia.
        * destruct (pt m) eqn:E; cbn [bindr]; [apply IH; lia|]. intros [= ->]. eapply Hpt; eauto.
      + destruct (pt t) eqn:E; cbn [bindr]; [apply IH; lia|]. intros [= ->]. eapply Hpt; eauto.
  Qed.

  (** ** Relation between specification trees and parser trees *)
  Variable P : str -> Prop.
  Inductive rel : bexp -> node -> Prop :=
  | rel_test t x : P t -> is_test t -> pt t = Ok x -> rel (BTest t) (Leaf x)
  | rel_or ess l : relss ess l -> rel (BGroup false ess) (Sub KOr (map (Sub KAnd) l))
  | rel_not ess l : relss ess l -> rel (BGroup true ess) (Sub KNot (map (Sub KAnd) l))
  with rels : list bexp -> list node -> Prop :=
  | rels_nil : rels [] []
  | rels_cons e n es ns : rel e n -> rels es ns -> rels (e :: es) (n :: ns)
  with relss : list (list bexp) -> list (list node) -> Prop :=
  | relss_nil : relss [] []
  | relss_cons es ns ess nss : rels es ns -> relss ess nss -> relss (es :: ess) (ns :: nss).
  Scheme rel_mind := Minimality for rel Sort Prop
    with rels_mind := Minimality for rels Sort Prop
    with relss_mind := Minimality for relss Sort Prop.
  Combined Scheme rel_mutind from rel_mind, rels_mind, relss_mind.

  Lemma rels_app a b c d : rels a b -> rels c d -> rels (a ++ c) (b ++ d).
  Proof. intros H K. induction H; cbn; [assumption|]. now constructor. Qed.
  Lemma relss_app a b c d : relss a b -> relss c d -> relss (a ++ c) (b ++ d).
  Proof. intros H K. induction H; cbn; [assumption|]. now constructor. Qed.
  Lemma rels_nil_iff a b : rels a b -> (a = [] <-> b = []).
  Proof. destruct 1; split; congruence. Qed.
  Lemma relss_len a b : relss a b -> length a = length b.
  Proof. induction 1; cbn; congruence. Qed.
  Lemma relss_empty a b : relss a b ->
    (existsb is_nil b = false <-> no_empty a).
  Proof.
    unfold no_empty. induction 1 as [|es ns ess nss H _ IH]; cbn.
    - split; [constructor|reflexivity].
    - rewrite orb_false_iff, IH, Forall_cons_iff. rewrite (rels_nil_iff _ _ H).
      destruct ns; cbn; intuition congruence.
  Qed.
  Lemma relss_last a b : relss a b -> (last b [] = [] <-> last a [] = []).
  Proof.
    induction 1 as [|es ns ess nss H K IH]; [easy|].
    destruct K; cbn in *; [rewrite (rels_nil_iff _ _ H); tauto|exact IH].
  Qed.
End P.

Section Mono.
  Context {T : Type} (pt : str -> res T).
  Lemma rel_mono (P Q : str -> Prop) : (forall t, P t -> Q t) ->
    (forall e n, rel pt P e n -> rel pt Q e n) /\
    (forall e n, rels pt P e n -> rels pt Q e n) /\
    (forall e n, relss pt P e n -> relss pt Q e n).
  Proof.
    intros H. apply rel_mutind; intros; constructor; auto.
  Qed.
End Mono.

Scheme Operand_mind := Minimality for Operand Sort Prop
  with Run_mind := Minimality for Run Sort Prop
  with Alts_mind := Minimality for Alts Sort Prop.
Combined Scheme grammar_mutind from Operand_mind, Run_mind, Alts_mind.

Section Complete.
  Context {T : Type} (pt : str -> res T).
  Notation node := (node T).
  Notation ps := (ps pt).

  Lemma ps_open o ts d c : is_open o -> ps (o :: ts) d c =
    bindr (ps ts [] []) (fun x => let (ts', sub) := x in
      match ts' with [] => Err ParserError
      | _ :: ts'' => ps ts'' d (c ++ [close_seqs KOr sub]) end).
  Proof. intros H. rewrite ps_eqn. unfold step_eqn. now rewrite classify_open. Qed.
  Lemma ps_close o ts d c : is_close o -> ps (o :: ts) d c =
    if is_nil c then Err ParserError else Ok (o :: ts, (d, c)).
  Proof. intros H. rewrite ps_eqn. unfold step_eqn. now rewrite classify_close. Qed.
  Lemma ps_and o ts d c : is_AND o -> ps (o :: ts) d c = ps ts d c.
  Proof. intros H. rewrite ps_eqn. unfold step_eqn. now rewrite classify_AND. Qed.
  Lemma ps_or o ts d c : is_OR o -> ps (o :: ts) d c = ps ts (d ++ [c]) [].
  Proof. intros H. rewrite ps_eqn. unfold step_eqn. now rewrite classify_OR. Qed.
  Lemma ps_not_test o t ts d c : is_NOT o -> is_test t -> ps (o :: t :: ts) d c =
    bindr (pt t) (fun x => ps ts d (c ++ [Sub KNot [Sub KAnd [Leaf x]]])).
  Proof. intros H K. rewrite ps_eqn. unfold step_eqn. now rewrite classify_NOT, classify_test. Qed.
  Lemma ps_not_open o t ts d c : is_NOT o -> is_open t -> ps (o :: t :: ts) d c =
    bindr (ps ts [] []) (fun x => let (ts', sub) := x in
      match ts' with [] => Err ParserError
      | _ :: ts'' => ps ts'' d (c ++ [close_seqs KNot sub]) end).
  Proof. intros H K. rewrite ps_eqn. unfold step_eqn. now rewrite classify_NOT, classify_open. Qed.
  Lemma ps_test t ts d c : is_test t -> ps (t :: ts) d c =
    bindr (pt t) (fun x => ps ts d (c ++ [Leaf x])).
  Proof. intros H. rewrite ps_eqn. unfold step_eqn. now rewrite classify_test. Qed.

  Variable ok : list (list bexp) -> Prop.
  Hypothesis ok_last : forall ess, ess <> [] -> ok ess -> last_nonempty ess.

  Let PT (ts : list str) := forall t, In t ts -> is_test t -> exists x, pt t = Ok x.

  (** Every derivation is followed by the parser. *)
  Lemma complete :
    (forall ts e, Operand ok ts e -> PT ts ->
      exists n, rel pt (fun t => In t ts) e n /\
        forall rest d c, ps (ts ++ rest) d c = ps rest d (c ++ [n])) /\
    (forall ts es, Run ok ts es -> PT ts ->
      exists ns, rels pt (fun t => In t ts) es ns /\
        forall rest d c, ps (ts ++ rest) d c = ps rest d (c ++ ns)) /\
    (forall ts ess, Alts ok ts ess -> PT ts ->
      exists ns nss, relss pt (fun t => In t ts) ess (ns :: nss) /\
        forall rest d c, ps (ts ++ rest) d c =
          ps rest (d ++ removelast ((c ++ ns) :: nss)) (last ((c ++ ns) :: nss) [])).
  Proof.
    apply grammar_mutind.
    - intros t Ht HP. destruct (HP t) as [x Hx]; [now left|assumption|].
      exists (Leaf x). split; [constructor; [now left|assumption|assumption]|].
      intros. cbn [app]. now rewrite ps_test, Hx.
    - intros n t Hn Ht HP. destruct (HP t) as [x Hx]; [right; now left|assumption|].
      exists (Sub KNot [Sub KAnd [Leaf x]]). split.
      + apply (rel_not _ _ [[BTest t]] [[Leaf x]]). constructor; [|constructor]; constructor; [|constructor]; constructor;
          [right; now left|assumption|assumption].
      + intros. cbn [app]. now rewrite ps_not_test, Hx.
    - intros o ts ess c Ho Hc _ IH Hok HP.
      destruct IH as (ns & nss & Hr & Hs).
      { intros t Hin. apply HP. right. apply in_or_app. now left. }
      exists (Sub KOr (map (Sub KAnd) (ns :: nss))). split.
      + constructor. eapply rel_mono; [|exact Hr]. intros t Hin. right. apply in_or_app. now left.
      + intros. cbn [app]. rewrite <- app_assoc. rewrite ps_open by assumption.
        cbn [app]. rewrite Hs. rewrite ps_close by assumption. cbn [app].
        replace (is_nil (last (ns :: nss) [])) with false.
        2:{ apply ok_last in Hok; [|inversion Hr; discriminate]. unfold last_nonempty in Hok.
            destruct (last (ns :: nss) []) eqn:E; [|reflexivity].
            apply (relss_last _ _ _ _ Hr) in E. congruence. }
        cbn [bindr]. f_equal. f_equal. f_equal. unfold close_seqs. cbn [fst snd].
        rewrite <- (app_removelast_last (l := ns :: nss) []) by discriminate. reflexivity.
    - intros n o ts ess c Hn Ho Hc _ IH Hok HP.
      destruct IH as (ns & nss & Hr & Hs).
      { intros t Hin. apply HP. right. right. apply in_or_app. now left. }
      exists (Sub KNot (map (Sub KAnd) (ns :: nss))). split.
      + constructor. eapply rel_mono; [|exact Hr]. intros t Hin. right. right. apply in_or_app. now left.
      + intros. cbn [app]. rewrite <- app_assoc. rewrite ps_not_open by assumption.
        cbn [app]. rewrite Hs. rewrite ps_close by assumption. cbn [app].
        replace (is_nil (last (ns :: nss) [])) with false.
        2:{ apply ok_last in Hok; [|inversion Hr; discriminate]. unfold last_nonempty in Hok.
            destruct (last (ns :: nss) []) eqn:E; [|reflexivity].
            apply (relss_last _ _ _ _ Hr) in E. congruence. }
        cbn [bindr]. f_equal. f_equal. f_equal. unfold close_seqs. cbn [fst snd].
        rewrite <- (app_removelast_last (l := ns :: nss) []) by discriminate. reflexivity.
    - intros _. exists []. split; [constructor|]. intros. cbn [app]. now rewrite app_nil_r.
    - intros a ts es Ha _ IH HP. destruct IH as (ns & Hr & Hs).
      { intros t Hin. apply HP. now right. }
      exists ns. split; [eapply rel_mono; [|exact Hr]; intros; now right|].
      intros. cbn [app]. now rewrite ps_and.
    - intros us e ts es _ IH1 _ IH2 HP.
      destruct IH1 as (n & Hr1 & Hs1); [intros t Hin; apply HP, in_or_app; now left|].
      destruct IH2 as (ns & Hr2 & Hs2); [intros t Hin; apply HP, in_or_app; now right|].
      exists (n :: ns). split.
      + constructor; [eapply rel_mono; [|exact Hr1]|eapply rel_mono; [|exact Hr2]];
          intros; apply in_or_app; tauto.
      + intros. rewrite <- app_assoc, Hs1, Hs2, <- app_assoc. reflexivity.
    - intros ts es _ IH HP. destruct IH as (ns & Hr & Hs); [assumption|].
      exists ns, []. split; [now repeat constructor|].
      intros. rewrite Hs. cbn [removelast last app]. now rewrite app_nil_r.
    - intros ts1 es o ts2 ess _ IH1 Ho _ IH2 HP.
      destruct IH1 as (ns1 & Hr1 & Hs1); [intros t Hin; apply HP, in_or_app; now left|].
      destruct IH2 as (ns & nss & Hr2 & Hs2); [intros t Hin; apply HP, in_or_app; right; now right|].
      exists ns1, (ns :: nss). split.
      + constructor; [eapply rel_mono; [|exact Hr1]|eapply rel_mono; [|exact Hr2]];
          intros; apply in_or_app; [now left|right; now right].
      + intros. rewrite <- app_assoc, Hs1. cbn [app]. rewrite ps_or, Hs2 by assumption.
        rewrite <- app_assoc. reflexivity.
  Qed.

  Lemma parse_complete ts ess : Alts ok ts ess -> (length ess = 1 \/ no_empty ess) -> PT ts ->
    exists nss, relss pt (fun t => In t ts) ess nss /\ parse pt ts = Ok (map (Sub KAnd) nss).
  Proof.
    intros HA He HP. destruct (proj2 (proj2 complete) ts ess HA HP) as (ns & nss & Hr & Hs).
    exists (ns :: nss). split; [assumption|].
    unfold parse. change (parse_sequence pt (S (length ts)) ts [] []) with (ps ts [] []).
    specialize (Hs [] [] []). rewrite app_nil_r in Hs. cbn [app] in Hs. rewrite Hs.
    rewrite ps_eqn. unfold step_eqn.
    assert (E : removelast (ns :: nss) ++ [last (ns :: nss) []] = ns :: nss)
      by (symmetry; apply app_removelast_last; discriminate).
    replace (negb (is_nil (removelast (ns :: nss)))
      && existsb is_nil (removelast (ns :: nss) ++ [last (ns :: nss) []])) with false.
    - cbn [bindr fst snd]. now rewrite E.
    - rewrite E. destruct He as [He|He].
      + rewrite (relss_len _ _ _ _ Hr) in He. destruct nss; [reflexivity|discriminate].
      + apply (relss_empty _ _ _ _ Hr) in He. rewrite He. now rewrite andb_false_r.
  Qed.
End Complete.

Section Sound.
  Context {T : Type} (pt : str -> res T).
  Notation node := (node T).
  Notation ps := (ps pt).
  Notation Run := (Run last_nonempty).
  Notation Alts := (Alts last_nonempty).
  Notation Operand := (Operand last_nonempty).

  (** Prepending to the first run of a group. *)
  Lemma Alts_prepend us e ts es ess : Operand us e -> Alts ts (es :: ess) ->
    Alts (us ++ ts) ((e :: es) :: ess).
  Proof.
    intros Ho H. inversion H; subst.
    - constructor. now constructor.
    - rewrite app_assoc. constructor; [now constructor|assumption|assumption].
  Qed.
  Lemma Alts_and a ts es ess : is_AND a -> Alts ts (es :: ess) -> Alts (a :: ts) (es :: ess).
  Proof.
    intros Ho H. inversion H; subst.
    - constructor. now constructor.
    - change (a :: ts1 ++ o :: ts2) with ((a :: ts1) ++ o :: ts2).
      constructor; [now constructor|assumption|assumption].
  Qed.

  (** Every run of the parser follows a derivation. *)
  Lemma sound n : forall tokens d c rest d' c', length tokens <= n ->
    ps tokens d c = Ok (rest, (d', c')) ->
    exists ts es ess ns nss,
      tokens = ts ++ rest /\ Alts ts (es :: ess) /\ relss pt (fun t => In t ts) (es :: ess) (ns :: nss) /\
      d' ++ [c'] = d ++ (c ++ ns) :: nss /\
      ((rest = [] /\ (d' = [] \/ existsb is_nil (d' ++ [c']) = false))
       \/ (exists k r, rest = k :: r /\ is_close k /\ c' <> [])).
  Proof.
    induction n as [|n IH]; intros tokens d c rest d' c' L; rewrite ps_eqn; unfold step_eqn.
    - destruct tokens as [|t ts]; [|cbn in L; lia].
      destruct (negb (is_nil d) && existsb is_nil (d ++ [c])) eqn:E; [discriminate|].
      intros [= <- <- <-]. exists [], [], [], [], []. repeat split.
      + repeat constructor.
      + repeat constructor.
      + now rewrite app_nil_r.
      + left. split; [reflexivity|]. apply andb_false_iff in E as [E|E]; [|now right].
        left. now destruct d.
    - assert (EXT : forall us e x ts rest' d c, tokens = us ++ ts -> length ts <= n ->
        Operand us e -> rel pt (fun t => In t us) e x ->
        ps ts d (c ++ [x]) = Ok (rest', (d', c')) ->
        exists ts es ess ns nss,
          tokens = ts ++ rest' /\ Alts ts (es :: ess) /\
          relss pt (fun t => In t ts) (es :: ess) (ns :: nss) /\
          d' ++ [c'] = d ++ (c ++ ns) :: nss /\
          ((rest' = [] /\ (d' = [] \/ existsb is_nil (d' ++ [c']) = false))
           \/ (exists k r, rest' = k :: r /\ is_close k /\ c' <> []))).
      { intros us e x ts rest' d0 c0 Et Lt Ho Hr H.
        apply IH in H; [|assumption].
        destruct H as (ts0 & es & ess & ns & nss & E1 & E2 & E3 & E4 & E5).
        exists (us ++ ts0), (e :: es), ess, (x :: ns), nss. repeat split.
        - rewrite Et, E1. apply app_assoc.
        - now apply Alts_prepend.
        - inversion E3; subst. constructor.
          + constructor; (eapply rel_mono; [|eassumption]); intros; apply in_or_app; tauto.
          + eapply rel_mono; [|eassumption]. intros; apply in_or_app; tauto.
        - rewrite E4, <- app_assoc. reflexivity.
        - exact E5. }
      assert (GRP : forall pre k ts d c rest',
        tokens = pre ++ ts -> length ts <= n ->
        (forall ts1 ess cl, is_close cl -> Alts ts1 ess -> last_nonempty ess ->
          Operand (pre ++ ts1 ++ [cl]) (BGroup (match k with KNot => true | _ => false end) ess)) ->
        k <> KAnd ->
        bindr (ps ts [] []) (fun x => let (ts', sub) := x in
          match ts' with [] => Err ParserError
          | _ :: ts'' => ps ts'' d (c ++ [close_seqs k sub]) end) = Ok (rest', (d', c')) ->
        exists ts es ess ns nss,
          tokens = ts ++ rest' /\ Alts ts (es :: ess) /\
          relss pt (fun t => In t ts) (es :: ess) (ns :: nss) /\
          d' ++ [c'] = d ++ (c ++ ns) :: nss /\
          ((rest' = [] /\ (d' = [] \/ existsb is_nil (d' ++ [c']) = false))
           \/ (exists k r, rest' = k :: r /\ is_close k /\ c' <> []))).
      { intros pre k ts d0 c0 rest' Et Lt HO Hk H.
        destruct (ps ts [] []) as [[ts' [sd sc]]|] eqn:E; [|discriminate]. cbn [bindr] in H.
        destruct ts' as [|cl ts'']; [discriminate|].
        pose proof (ps_len _ _ _ _ _ _ E) as Ll. cbn in Ll.
        apply IH in E; [|assumption].
        destruct E as (ts0 & es & ess & ns & nss & E1 & E2 & E3 & E4 & E5).
        destruct E5 as [[E5 _]|(cl' & r' & E5 & Hcl & Hne)]; [discriminate|].
        injection E5 as <- <-. cbn [app] in E4.
        assert (Hlast : last_nonempty (es :: ess)).
        { unfold last_nonempty. intros K.
          apply (relss_last _ _ _ _ E3) in K. rewrite <- E4 in K.
          rewrite last_last in K. congruence. }
        specialize (HO ts0 (es :: ess) cl Hcl E2 Hlast).
        apply (EXT (pre ++ ts0 ++ [cl])
          (BGroup (match k with KNot => true | _ => false end) (es :: ess)) (close_seqs k (sd, sc)) ts'' rest' d0 c0).
        - rewrite Et, E1, <- !app_assoc. reflexivity.
        - lia.
        - exact HO.
        - unfold close_seqs. cbn [fst snd]. rewrite E4.
          assert (R : relss pt (fun t => In t (pre ++ ts0 ++ [cl])) (es :: ess) (ns :: nss)).
          { eapply rel_mono; [|exact E3]. intros t Hin. apply in_or_app. right.
            apply in_or_app. now left. }
          destruct k; [congruence| |]; constructor; exact R.
        - exact H. }
      destruct tokens as [|t ts].
      { intros H.
        destruct (negb (is_nil d) && existsb is_nil (d ++ [c])) eqn:E; [discriminate|].
        injection H as <- <- <-. exists [], [], [], [], []. repeat split.
        + repeat constructor.
        + repeat constructor.
        + now rewrite app_nil_r.
        + left. split; [reflexivity|]. apply andb_false_iff in E as [E|E]; [|now right].
          left. now destruct d. }
      cbn in L. pose proof (classify_spec t) as Ht.
      destruct (classify t).
      + intros H. apply (GRP [t] KOr ts d c rest); [reflexivity|lia| |discriminate|exact H].
        intros. cbn. now constructor.
      + destruct (is_nil c) eqn:Ec; [discriminate|]. intros [= <- <- <-].
        exists [], [], [], [], []. repeat split.
        * repeat constructor.
        * repeat constructor.
        * now rewrite app_nil_r.
        * right. exists t, ts. repeat split; [assumption|]. now destruct c.
      + intros H. apply IH in H; [|lia].
        destruct H as (ts0 & es & ess & ns & nss & E1 & E2 & E3 & E4 & E5).
        exists (t :: ts0), es, ess, ns, nss. repeat split; try assumption.
        * cbn. now rewrite E1.
        * now apply Alts_and.
        * eapply rel_mono; [|exact E3]. intros; now right.
      + intros H. apply IH in H; [|lia].
        destruct H as (ts0 & es & ess & ns & nss & E1 & E2 & E3 & E4 & E5).
        exists (t :: ts0), [], (es :: ess), [], (ns :: nss). repeat split; try assumption.
        * cbn. now rewrite E1.
        * change (t :: ts0) with ([] ++ t :: ts0). constructor; [constructor|assumption|assumption].
        * constructor; [constructor|]. eapply rel_mono; [|exact E3]. intros; now right.
        * rewrite E4, <- app_assoc, app_nil_r. reflexivity.
      + destruct ts as [|m ts]; [discriminate|]. cbn in L.
        pose proof (classify_spec m) as Hm. destruct (classify m); try discriminate.
        * intros H. apply (GRP [t; m] KNot ts d c rest); [reflexivity|lia| |discriminate|exact H].
          intros. cbn. now constructor.
        * destruct (pt m) as [x|] eqn:Ex; [|discriminate]. cbn [bindr]. intros H.
          apply (EXT [t; m] (BGroup true [[BTest m]]) (Sub KNot [Sub KAnd [Leaf x]]) ts rest d c);
            [reflexivity|lia|now constructor| |exact H].
          apply (rel_not _ _ [[BTest m]] [[Leaf x]]). constructor; [|constructor]; constructor; [|constructor]; constructor;
          [right; now left|assumption|assumption].
      + destruct (pt t) as [x|] eqn:Ex; [|discriminate]. cbn [bindr]. intros H.
        apply (EXT [t] (BTest t) (Leaf x) ts rest d c);
            [reflexivity|lia|now constructor| |exact H].
        constructor; [now left|assumption|assumption].
  Qed.

  Lemma parse_sound ts tree : parse pt ts = Ok tree ->
    exists ess nss, Accepted ts ess /\ relss pt (fun t => In t ts) ess nss
      /\ tree = map (Sub KAnd) nss.
  Proof.
    unfold parse. change (parse_sequence pt (S (length ts)) ts [] []) with (ps ts [] []).
    destruct (ps ts [] []) as [[rest [d' c']]|] eqn:E; [|discriminate]. cbn [bindr].
    apply (sound (length ts)) in E; [|lia].
    destruct E as (ts0 & es & ess & ns & nss & E1 & E2 & E3 & E4 & E5).
    destruct rest as [|k r]; [|discriminate]. rewrite app_nil_r in E1. subst ts0.
    cbn [fst snd]. intros [= <-]. cbn [app] in E4. exists (es :: ess), (ns :: nss).
    destruct E5 as [[_ E5]|(? & ? & ? & _)]; [|discriminate].
    repeat split; try assumption; [|now rewrite E4].
    destruct E5 as [->|E5].
    - left. rewrite (relss_len _ _ _ _ E3), <- E4. reflexivity.
    - right. rewrite E4 in E5. now apply (relss_empty _ _ _ _ E3).
  Qed.
End Sound.

(** ** Evaluation *)
Section Eval.
  Context {T : Type} (run : T -> outcome) .
  Notation eval := (eval run).

  (** [any] and [all] of the generator. *)
  Fixpoint all_l (l : list (node T)) : res bool :=
    match l with
    | [] => Ok true
    | x :: r => do b <- eval x; if b then all_l r else Ok false
    end.
  Fixpoint any_l (l : list (node T)) : res bool :=
    match l with
    | [] => Ok false
    | x :: r => do b <- eval x; if b then Ok true else any_l r
    end.
  Lemma eval_and l : eval (Sub KAnd l) = all_l l.
  Proof. reflexivity. Qed.
  Lemma eval_or l : eval (Sub KOr l) = any_l l.
  Proof.
    change (eval (Sub KOr l)) with (bindr (any_l l) (fun b => Ok b)).
    now destruct (any_l l).
  Qed.
  Lemma eval_not l : eval (Sub KNot l) = bindr (any_l l) (fun b => Ok (negb b)).
  Proof. reflexivity. Qed.

  Lemma all_l_forallb (f : node T -> bool) l : (forall x, In x l -> eval x = Ok (f x)) ->
    all_l l = Ok (forallb f l).
  Proof.
    induction l as [|x r IH]; intros H; [reflexivity|]. cbn.
    rewrite H by now left. cbn. destruct (f x); [|reflexivity]. apply IH. intros; apply H; now right.
  Qed.
  Lemma any_l_existsb (f : node T -> bool) l : (forall x, In x l -> eval x = Ok (f x)) ->
    any_l l = Ok (existsb f l).
  Proof.
    induction l as [|x r IH]; intros H; [reflexivity|]. cbn.
    rewrite H by now left. cbn. destruct (f x); [reflexivity|]. apply IH. intros; apply H; now right.
  Qed.

  (** The truth value a test contributes. *)
  Definition truth (o : outcome) (b : bool) : Prop := o = Val b \/ (o = Missing /\ b = false).

  Lemma eval_rel (pt : str -> res T) (P : str -> Prop) (v : str -> bool) :
    (forall t x, P t -> is_test t -> pt t = Ok x -> truth (run x) (v t)) ->
    (forall e n, rel pt P e n -> eval n = Ok (denote v e)) /\
    (forall es ns, rels pt P es ns -> all_l ns = Ok (forallb (denote v) es)) /\
    (forall ess nss, relss pt P ess nss ->
        any_l (map (Sub KAnd) nss) = Ok (denote_alts v ess)).
  Proof.
    intros H. apply rel_mutind.
    - intros t x HP Ht Hx. specialize (H t x HP Ht Hx) as [H|[H Hv]]; cbn; rewrite H; [|rewrite Hv]; reflexivity.
    - intros ess l _ IH. rewrite eval_or, IH. unfold denote_alts. cbn [denote]. now destruct (existsb _ _).
    - intros ess l _ IH. rewrite eval_not, IH. unfold denote_alts. cbn [denote bindr]. now destruct (existsb _ _).
    - reflexivity.
    - intros e n es ns _ IH1 _ IH2. cbn. rewrite IH1. cbn. now destruct (denote v e).
    - reflexivity.
    - intros es ns ess nss _ IH1 _ IH2. cbn [map any_l]. rewrite eval_and, IH1. cbn [bindr].
      unfold denote_alts in *. cbn. now destruct (forallb (denote v) es).
  Qed.
End Eval.

(** ** The optimiser *)
Section NodeInd.
  Context {T : Type} (Q : node T -> Prop).
  Hypothesis HL : forall t, Q (Leaf t).
  Hypothesis HS : forall k l, Forall Q l -> Q (Sub k l).
  Fixpoint node_ind' (n : node T) : Q n :=
    match n with
    | Leaf t => HL t
    | Sub k l => HS k l ((fix go (l : list (node T)) : Forall Q l :=
        match l with [] => Forall_nil _ | x :: r => Forall_cons x (node_ind' x) (go r) end) l)
    end.
End NodeInd.

Section Opt.
  Context {T : Type} (score : T -> Z) (run : T -> outcome).
  Notation key := (get_speed_score score).
  Notation opt := (optimize_node score).
  Notation eval := (eval run).

  Lemma sum_perm l1 l2 : Permutation l1 l2 -> fold_right Z.add 0%Z l1 = fold_right Z.add 0%Z l2.
  Proof. induction 1; cbn; lia. Qed.

  Lemma optimize_key n : key (opt n) = key n.
  Proof.
    induction n as [t|k l IH] using node_ind'; [reflexivity|]. cbn.
    rewrite <- (sum_perm (map key (map opt l))).
    2:{ apply Permutation_map, isort_perm. }
    rewrite map_map. f_equal. apply map_ext_in.
    rewrite Forall_forall in IH. exact IH.
  Qed.

  (** Sorting before or after the recursion gives the same list, so
      [optimize_node] is what libff/parser.py:225-233 computes. *)
  Lemma insert_map f x l : (forall n, key (f n) = key n) ->
    insert (keyleb key) (f x) (map f l) = map f (insert (keyleb key) x l).
  Proof.
    intros Hf. induction l as [|y t IH]; [reflexivity|]. cbn. unfold keyleb at 1 3.
    rewrite !Hf. destruct (_ <=? _)%Z; cbn; [reflexivity|]. now rewrite IH.
  Qed.
  Lemma optimize_sort_first l : optimize score l = map opt (sort_by key l).
  Proof.
    unfold optimize, sort_by. induction l as [|x t IH]; [reflexivity|].
    cbn. rewrite IH. apply insert_map, optimize_key.
  Qed.

  (** Every list object in the tree is sorted by cost. *)
  Inductive sorted_tree : node T -> Prop :=
  | st_leaf t : sorted_tree (Leaf t)
  | st_sub k l : StronglySorted (fun a b => (key a <= key b)%Z) l -> Forall sorted_tree l ->
      sorted_tree (Sub k l).

  Lemma sort_by_sorted l : StronglySorted (fun a b => (key a <= key b)%Z) (sort_by key l).
  Proof.
    assert (H : StronglySorted (le (keyleb key)) (sort_by key l)).
    { apply isort_sorted; [apply keyleb_total|apply keyleb_trans]. }
    revert H. generalize (sort_by key l) as r. induction r as [|x r IH]; intros H; constructor.
    - apply IH. now inversion H.
    - inversion H; subst. eapply Forall_impl; [|eassumption].
      intros a. unfold le, keyleb. now rewrite Z.leb_le.
  Qed.
  Lemma optimize_node_sorted n : sorted_tree (opt n).
  Proof.
    induction n as [t|k l IH] using node_ind'; [constructor|]. cbn. constructor.
    - apply sort_by_sorted.
    - rewrite Forall_forall in *. intros x Hx. apply isort_in, in_map_iff in Hx as (y & <- & Hy). auto.
  Qed.

  (** Leaves that can be evaluated without an exception. *)
  Inductive clean : node T -> Prop :=
  | cl_leaf t : (forall e, run t <> Raise e) -> clean (Leaf t)
  | cl_sub k l : Forall clean l -> clean (Sub k l).

  (** Truth value of a clean tree. *)
  Fixpoint tv (n : node T) : bool :=
    match n with
    | Leaf t => match run t with Val b => b | _ => false end
    | Sub KAnd l => forallb tv l
    | Sub KOr l => existsb tv l
    | Sub KNot l => negb (existsb tv l)
    end.
  Lemma eval_tv n : clean n -> eval n = Ok (tv n).
  Proof.
    induction n as [t|k l IH] using node_ind'; intros H; inversion H; subst.
    - cbn. destruct (run t) eqn:E; try reflexivity. exfalso. eapply H1; reflexivity.
    - assert (A : forall x, In x l -> eval x = Ok (tv x)).
      { rewrite Forall_forall in *. auto. }
      destruct k.
      + rewrite eval_and. now apply all_l_forallb.
      + rewrite eval_or. now apply any_l_existsb.
      + rewrite eval_not. now rewrite (any_l_existsb _ tv).
  Qed.

  Lemma forallb_perm (f : node T -> bool) a b : Permutation a b -> forallb f a = forallb f b.
  Proof. induction 1; cbn; try congruence. destruct (f x), (f y); reflexivity. Qed.
  Lemma existsb_perm (f : node T -> bool) a b : Permutation a b -> existsb f a = existsb f b.
  Proof. induction 1; cbn; try congruence. destruct (f x), (f y); reflexivity. Qed.

  Lemma tv_opt n : tv (opt n) = tv n.
  Proof.
    induction n as [t|k l IH] using node_ind'; [reflexivity|].
    assert (E : map tv (map opt l) = map tv l).
    { rewrite map_map. apply map_ext_in. rewrite Forall_forall in IH. exact IH. }
    assert (FB : forallb tv (map opt l) = forallb tv l).
    { clear -E. revert E. induction l as [|x t IHl]; [reflexivity|]. cbn. intros [= E1 E2].
      rewrite E1. f_equal. auto. }
    assert (EB : existsb tv (map opt l) = existsb tv l).
    { clear -E. revert E. induction l as [|x t IHl]; [reflexivity|]. cbn. intros [= E1 E2].
      rewrite E1. f_equal. auto. }
    destruct k; cbn [opt tv]; unfold sort_by.
    - rewrite <- FB. symmetry. apply forallb_perm, isort_perm.
    - rewrite <- EB. symmetry. apply existsb_perm, isort_perm.
    - rewrite <- EB. f_equal. symmetry. apply existsb_perm, isort_perm.
  Qed.
  Lemma clean_opt n : clean n -> clean (opt n).
  Proof.
    induction n as [t|k l IH] using node_ind'; intros H; inversion H; subst; [now constructor|].
    cbn. constructor. rewrite Forall_forall in *.
    intros x Hx. apply isort_in, in_map_iff in Hx as (y & <- & Hy). auto.
  Qed.
  Lemma clean_opt_list l : Forall clean l -> Forall clean (optimize score l).
  Proof.
    intros H. rewrite Forall_forall in *. intros x Hx.
    apply isort_in, in_map_iff in Hx as (y & <- & Hy). now apply clean_opt, H.
  Qed.

  Lemma eval_optimize seq : Forall clean seq ->
    eval (Sub KOr (optimize score seq)) = eval (Sub KOr seq).
  Proof.
    intros H. rewrite !eval_tv by (constructor; auto using clean_opt_list).
    f_equal. change (optimize score seq) with
      (match opt (Sub KOr seq) with Sub _ l => l | Leaf _ => [] end).
    change (tv (opt (Sub KOr seq)) = tv (Sub KOr seq)). apply tv_opt.
  Qed.

  Lemma flat_nil_iff (l : list (list (node T))) :
    is_empty (map (Sub KAnd) l) = forallb is_nil l.
  Proof.
    unfold is_empty, flat. induction l as [|x t IH]; [reflexivity|]. cbn.
    destruct x; [exact IH|reflexivity].
  Qed.
  Lemma is_empty_optimize seq : is_empty (optimize score seq) = is_empty seq.
  Proof.
    unfold is_empty.
    assert (A : forall l, is_nil (flat l) = forallb (fun n : node T => match n with Sub _ l => is_nil l | Leaf _ => true end) l).
    { unfold flat. induction l as [|x t IH]; [reflexivity|]. cbn. destruct x; [exact IH|].
      destruct l; [exact IH|reflexivity]. }
    rewrite !A. unfold optimize, sort_by.
    rewrite <- (forallb_perm _ _ _ (isort_perm (keyleb key) (map opt seq))).
    induction seq as [|x t IH]; [reflexivity|]. cbn. rewrite IH. f_equal.
    destruct x as [y|k l]; [reflexivity|]. cbn.
    pose proof (isort_length (keyleb key) (map opt l)) as L. rewrite map_length in L.
    unfold sort_by. destruct l, (isort (keyleb key) _); cbn in *; try discriminate; reflexivity.
  Qed.
End Opt.

(** ** Matcher *)
Section Matcher.
  Context {T : Type} (pt : str -> res T) (score : T -> Z) (run : T -> outcome).

  Lemma rel_clean (P : str -> Prop) :
    (forall t x, P t -> is_test t -> pt t = Ok x -> forall e, run x <> Raise e) ->
    (forall e n, rel pt P e n -> clean run n) /\
    (forall es ns, rels pt P es ns -> Forall (clean run) ns) /\
    (forall ess nss, relss pt P ess nss -> Forall (clean run) (map (Sub KAnd) nss)).
  Proof.
    intros H. apply rel_mutind; intros; cbn; try constructor; try assumption.
    - eapply H; eauto.
    - now constructor.
  Qed.

  Lemma matcher_relss ts ess nss v :
    parse pt ts = Ok (map (Sub KAnd) nss) ->
    relss pt (fun t => In t ts) ess nss ->
    (length ess = 1 \/ no_empty ess) ->
    (forall t x, In t ts -> is_test t -> pt t = Ok x -> truth (run x) (v t)) ->
    matcher pt score run ts = Ok (denote_alts v ess).
  Proof.
    intros Hp Hr He Hv. unfold matcher. rewrite Hp. cbn [bindr].
    rewrite is_empty_optimize, flat_nil_iff.
    rewrite eval_optimize.
    2:{ eapply rel_clean; [|exact Hr]. intros t x Hin Ht Hx e. specialize (Hv t x Hin Ht Hx).
        destruct Hv as [K|[K _]]; rewrite K; discriminate. }
    rewrite eval_or.
    rewrite (proj2 (proj2 (eval_rel run pt (fun t => In t ts) v Hv)) ess nss Hr).
    destruct (forallb is_nil nss) eqn:E; [|reflexivity]. f_equal. symmetry.
    destruct He as [He|He].
    - inversion Hr as [|es ns ess' nss' H1 H2]; subst; [discriminate|].
      destruct ess'; [|discriminate]. cbn in E. apply andb_true_iff in E as [E _].
      destruct H1; [reflexivity|discriminate].
    - inversion Hr as [|es ns ess' nss' H1 H2]; subst.
      + exfalso. clear -Hp. unfold parse in Hp.
        destruct (parse_sequence _ _ _ _ _) as [[rest s]|]; [|discriminate]. cbn in Hp.
        destruct rest; [|discriminate]. destruct (fst s); discriminate.
      + cbn in E. apply andb_true_iff in E as [E _].
        apply Forall_inv in He. destruct H1; [congruence|discriminate].
  Qed.

  Theorem matcher_meaning ts ess v :
    Expression ts ess ->
    (forall t, In t ts -> is_test t -> exists x, pt t = Ok x /\ truth (run x) (v t)) ->
    matcher pt score run ts = Ok (denote_alts v ess).
  Proof.
    intros [HA He] HP.
    assert (He' : length ess = 1 \/ no_empty ess) by (destruct He as [->|?]; auto).
    destruct (parse_complete pt no_empty) with (ts := ts) (ess := ess) as (nss & Hr & Hp); auto.
    - intros l Hn Hl. unfold last_nonempty, no_empty in *.
      rewrite (app_removelast_last [] Hn) in Hl. apply Forall_app in Hl as [_ Hl].
      now apply Forall_inv in Hl.
    - intros t Hin Ht. destruct (HP t Hin Ht) as (x & Hx & _). eauto.
    - eapply matcher_relss; eauto.
      intros t x Hin Ht Hx. destruct (HP t Hin Ht) as (x' & Hx' & Hv). congruence.
  Qed.

  (** The accepted language, with its meaning. *)
  Theorem matcher_accepts ts ess v :
    Accepted ts ess ->
    (forall t, In t ts -> is_test t -> exists x, pt t = Ok x /\ truth (run x) (v t)) ->
    matcher pt score run ts = Ok (denote_alts v ess).
  Proof.
    intros [HA He] HP.
    destruct (parse_complete pt last_nonempty) with (ts := ts) (ess := ess) as (nss & Hr & Hp); auto.
    - intros t Hin Ht. destruct (HP t Hin Ht) as (x & Hx & _). eauto.
    - eapply matcher_relss; eauto.
      intros t x Hin Ht Hx. destruct (HP t Hin Ht) as (x' & Hx' & Hv). congruence.
  Qed.

  Theorem matcher_rejects ts b :
    matcher pt score run ts = Ok b -> exists ess, Accepted ts ess.
  Proof.
    unfold matcher. destruct (parse pt ts) as [tree|] eqn:E; [|discriminate]. intros _.
    apply parse_sound in E as (ess & nss & H & _). eauto.
  Qed.
End Matcher.

(** ** Consequences used by the property file *)
Section Consequences.
  Context {T : Type} (pt : str -> res T).

  Lemma matcher_score_irrelevant (score score' : T -> Z) run ts :
    (forall t x, In t ts -> is_test t -> pt t = Ok x -> forall e, run x <> Raise e) ->
    matcher pt score run ts = matcher pt score' run ts.
  Proof.
    intros H. unfold matcher. destruct (parse pt ts) as [tree|] eqn:E; [|reflexivity].
    cbn [bindr]. rewrite !is_empty_optimize. destruct (is_empty tree); [reflexivity|].
    apply parse_sound in E as (ess & nss & _ & Hr & ->).
    apply (rel_clean pt run) in Hr; [|exact H].
    now rewrite !eval_optimize.
  Qed.

  Lemma eval_missing (run run' : T -> outcome) n :
    (forall x, run' x = match run x with Missing => Val false | o => o end) ->
    eval run n = eval run' n.
  Proof.
    intros H. induction n as [t|k l IH] using node_ind'.
    - cbn. rewrite H. now destruct (run t).
    - rewrite Forall_forall in IH.
      assert (A : all_l run l = all_l run' l).
      { induction l as [|x r IHl]; [reflexivity|]. cbn. rewrite (IH x) by now left.
        destruct (eval run' x) as [[]|]; try reflexivity. apply IHl. intros; apply IH; now right. }
      assert (B : any_l run l = any_l run' l).
      { clear A. induction l as [|x r IHl]; [reflexivity|]. cbn. rewrite (IH x) by now left.
        destruct (eval run' x) as [[]|]; try reflexivity. apply IHl. intros; apply IH; now right. }
      destruct k; [now rewrite !eval_and|now rewrite !eval_or|now rewrite !eval_not, B].
  Qed.
  Lemma matcher_missing score (run run' : T -> outcome) ts :
    (forall x, run' x = match run x with Missing => Val false | o => o end) ->
    matcher pt score run ts = matcher pt score run' ts.
  Proof.
    intros H. unfold matcher. destruct (parse pt ts) as [tree|]; [|reflexivity]. cbn [bindr].
    destruct (is_empty _); [reflexivity|]. now apply eval_missing.
  Qed.

  Lemma ps_tests ts xs d c : Forall is_test ts -> Forall2 (fun t x => pt t = Ok x) ts xs ->
    ps pt ts d c = ps pt [] d (c ++ map Leaf xs).
  Proof.
    intros H F. revert c H. induction F as [|t x ts xs E F IH]; intros c H.
    - cbn [map]. now rewrite app_nil_r.
    - apply Forall_cons_iff in H as [Ht H]. rewrite ps_test by assumption. rewrite E. cbn [bindr].
      rewrite IH by assumption. cbn [map]. now rewrite <- app_assoc.
  Qed.
  Lemma parse_tests ts xs : Forall is_test ts -> Forall2 (fun t x => pt t = Ok x) ts xs ->
    parse pt ts = Ok [Sub KAnd (map Leaf xs)].
  Proof.
    intros H F. unfold parse. change (parse_sequence pt (S (length ts)) ts [] []) with (ps pt ts [] []).
    rewrite (ps_tests _ xs) by assumption. rewrite ps_eqn. reflexivity.
  Qed.

  Definition excludes (o : outcome) : bool := match o with Val b => b | _ => false end.

  Lemma exclude_loop_leaves (run : T -> outcome) l :
    (forall x, In x l -> forall e, run x <> Raise e) ->
    exclude_loop run (map Leaf l) = Ok (existsb (fun x => excludes (run x)) l).
  Proof.
    induction l as [|x r IH]; intros H; [reflexivity|]. cbn.
    assert (Hx := H x (or_introl eq_refl)).
    assert (Hr : exclude_loop run (map Leaf r) = Ok (existsb (fun x => excludes (run x)) r))
      by (apply IH; intros y Hy; apply H; now right).
    destruct (run x) as [[]| |e]; cbn; try assumption; [reflexivity|]. now destruct (Hx e).
  Qed.

  Lemma sort_by_leaves score (l : list T) :
    sort_by (get_speed_score score) (map Leaf l) = map Leaf (sort_by score l).
  Proof.
    unfold sort_by. induction l as [|x r IH]; [reflexivity|]. cbn. rewrite IH.
    generalize (isort (keyleb score) r) as s. induction s as [|y s IHs]; [reflexivity|].
    cbn. unfold keyleb at 1 3. cbn [get_speed_score].
    destruct (_ <=? _)%Z; cbn; [reflexivity|]. now rewrite IHs.
  Qed.
  Lemma map_opt_leaves score (l : list T) :
    map (optimize_node score) (map Leaf l) = map Leaf l.
  Proof. rewrite map_map. now apply map_ext. Qed.

  Lemma existsb_perm' {A} (f : A -> bool) a b : Permutation a b -> existsb f a = existsb f b.
  Proof. induction 1; cbn; try congruence. destruct (f x), (f y); reflexivity. Qed.

  Lemma excluder_union score (run : T -> outcome) ts xs :
    Forall is_test ts -> Forall2 (fun t x => pt t = Ok x) ts xs ->
    (forall x, In x xs -> forall e, run x <> Raise e) ->
    excluder pt score run ts = Ok (existsb (fun x => excludes (run x)) xs).
  Proof.
    intros H F HR. unfold excluder. rewrite (parse_tests ts xs) by assumption. cbn [bindr].
    rewrite is_empty_optimize. unfold is_empty, flat at 1. cbn [flat_map]. rewrite app_nil_r.
    destruct xs as [|x xs]; [reflexivity|]. cbn [map is_nil].
    unfold optimize. cbn [map optimize_node].
    change (Leaf x :: map (optimize_node score) (map Leaf xs))
      with (map (optimize_node score) (map Leaf (x :: xs))).
    rewrite map_opt_leaves, sort_by_leaves. unfold sort_by at 1. cbn [isort insert].
    unfold flat. cbn [flat_map]. rewrite app_nil_r.
    rewrite exclude_loop_leaves.
    - f_equal. apply existsb_perm'. symmetry. apply isort_perm.
    - intros y Hy. apply HR. now apply isort_in in Hy.
  Qed.

End Consequences.

  (** Bracket-free token lists: acceptance is exactly well-formedness. *)
  Definition no_brackets (ts : list str) : Prop := Forall (fun t => ~ is_open t /\ ~ is_close t) ts.

  Lemma no_brackets_app a b : no_brackets (a ++ b) <-> no_brackets a /\ no_brackets b.
  Proof. apply Forall_app. Qed.

  Lemma no_brackets_ok (ok ok' : list (list bexp) -> Prop) :
    (forall ts e, Operand ok ts e -> no_brackets ts -> Operand ok' ts e) /\
    (forall ts es, Run ok ts es -> no_brackets ts -> Run ok' ts es) /\
    (forall ts ess, Alts ok ts ess -> no_brackets ts -> Alts ok' ts ess).
  Proof.
    apply grammar_mutind.
    - intros. now constructor.
    - intros. now constructor.
    - intros o ts ess c Ho _ _ _ _ H. inversion H; subst. tauto.
    - intros n o ts ess c _ Ho _ _ _ _ H. inversion H as [|? ? _ H2]; subst. inversion H2; subst. tauto.
    - constructor.
    - intros a ts es Ha _ IH H. inversion H; subst. constructor; auto.
    - intros us e ts es _ IH1 _ IH2 H. apply no_brackets_app in H as [H1 H2]. constructor; auto.
    - intros ts es _ IH H. constructor; auto.
    - intros ts1 es o ts2 ess _ IH1 Ho _ IH2 H. apply no_brackets_app in H as [H1 H2].
      inversion H2; subst. constructor; auto.
  Qed.

  Lemma accepted_expression_flat ts ess : no_brackets ts ->
    Accepted ts ess -> Expression ts ess.
  Proof.
    intros Hn [HA He]. split.
    - eapply no_brackets_ok; eauto.
    - destruct He as [He|He]; [|now right].
      destruct ess as [|es [|]]; try discriminate. destruct es; [now left|right].
      repeat constructor. discriminate.
  Qed.

Section Statements.
  Lemma bracket_or_accepted :
    exists ts : list str,
      (exists tree, parse (fun t => Ok t) ts = Ok tree) /\ ~ (exists ess, Expression ts ess).
  Proof.
    exists [$"{{"; $"or"; $"a"; $"}}"]. split; [eexists; vm_compute; reflexivity|].
    intros [ess [HA He]].
    (* The parser with the identity leaf function follows the derivation. *)
    assert (PT : forall t, In t [$"{{"; $"or"; $"a"; $"}}"] -> is_test t -> exists x : str, (fun t => Ok t) t = Ok x)
      by eauto.
    assert (OKL : forall ess, ess <> [] -> no_empty ess -> last_nonempty ess).
    { intros l Hn Hl. unfold last_nonempty, no_empty in *.
      rewrite (app_removelast_last [] Hn) in Hl. apply Forall_app in Hl as [_ Hl].
      now apply Forall_inv in Hl. }
    destruct (parse_complete (fun t => Ok t) no_empty OKL _ ess HA) as (nss & Hr & Hp); [|exact PT|].
    { destruct He as [->|?]; auto. }
    vm_compute in Hp. injection Hp as Hp.
    destruct nss as [|n1 [|]]; try discriminate. injection Hp as Hp. subst n1.
    inversion Hr as [|es ns ess' nss' H1 H2]; subst. inversion H2; subst.
    inversion H1 as [|e n es' ns' H3 H4]; subst. inversion H4; subst.
    inversion H3 as [|ess0 l H5 E1 E2|]; subst.
    destruct l as [|a [|b [|]]]; try discriminate. injection E2 as E2 E3. subst.
    inversion H5 as [|? ? ? ? H6 H7]; subst. inversion H6; subst.
    (* Now the derivation must contain a group whose first run is empty. *)
    clear -HA.
    assert (G : forall ok,
      (forall ts e, Operand ok ts e -> match e with BGroup false a => ok a | _ => True end) /\
      (forall ts es, Run ok ts es -> Forall (fun e => match e with BGroup false a => ok a | _ => True end) es) /\
      (forall ts ess, Alts ok ts ess -> Forall (Forall (fun e => match e with BGroup false a => ok a | _ => True end)) ess)).
    { intros ok. apply grammar_mutind; intros; auto. }
    apply G in HA. apply Forall_inv in HA. apply Forall_inv in HA. apply Forall_inv in HA. congruence.
  Qed.

  Lemma bracket_or_matches (T : Type) (pt : str -> res T) score run x :
    pt ($"a") = Ok x -> (forall e, run x <> Raise e) ->
    matcher pt score run [$"{{"; $"or"; $"a"; $"}}"] = Ok true.
  Proof.
    intros Hx HR. unfold matcher.
    assert (E : parse pt [$"{{"; $"or"; $"a"; $"}}"] =
      Ok [Sub KAnd [Sub KOr [Sub KAnd []; Sub KAnd [Leaf x]]]]).
    { unfold parse.
      change (parse_sequence pt _ _ [] []) with (ps pt [$"{{"; $"or"; $"a"; $"}}"] [] []).
      rewrite ps_open by now right. rewrite ps_or by now apply OR_iff.
      rewrite ps_test by (apply (classify_spec ($"a"))). rewrite Hx. cbn [bindr].
      rewrite ps_close by now right. cbn [is_nil app bindr]. now rewrite ps_eqn. }
    rewrite E. cbn [bindr]. rewrite is_empty_optimize.
    change (is_empty [Sub KAnd [Sub KOr [Sub KAnd []; Sub KAnd [Leaf x]]]]) with false.
    cbv iota. rewrite eval_optimize; [reflexivity|].
    repeat (constructor; [|try constructor]); constructor; auto.
    repeat constructor. exact HR.
  Qed.

  Lemma flat_accepted_wellformed (T : Type) (pt : str -> res T) score run ts b :
    no_brackets ts -> matcher pt score run ts = Ok b -> exists ess, Expression ts ess.
  Proof.
    intros Hn H. apply matcher_rejects in H as [ess H]. exists ess.
    now apply accepted_expression_flat.
  Qed.

  Lemma accepted_language (T : Type) (pt : str -> res T) (score : T -> Z) (run : T -> outcome)
         (ts : list str) (v : str -> bool) (b : bool) :
    (forall t, In t ts -> is_test t -> exists x, pt t = Ok x /\ truth (run x) (v t)) ->
    (matcher pt score run ts = Ok b <-> exists ess, Accepted ts ess /\ denote_alts v ess = b).
  Proof.
    intros H. split.
    - intros M. destruct (matcher_rejects pt score run ts b M) as [ess HA]. exists ess.
      split; [assumption|]. pose proof (matcher_accepts pt score run ts ess v HA H). congruence.
    - intros (ess & HA & <-). now apply matcher_accepts.
  Qed.

  Lemma optimize_sorted (T : Type) (score : T -> Z) (seq : list (node T)) :
    sorted_tree score (Sub KOr (optimize score seq)).
  Proof. exact (optimize_node_sorted score (Sub KOr seq)). Qed.

  Lemma empty_matches_all (T : Type) (pt : str -> res T) score run ts :
    Forall is_AND ts -> matcher pt score run ts = Ok true.
  Proof.
    intros H. unfold matcher.
    assert (E : parse pt ts = Ok [Sub KAnd []]).
    { unfold parse. change (parse_sequence pt (S (length ts)) ts [] []) with (ps pt ts [] []).
      replace (ps pt ts [] []) with (ps pt [] [] []); [now rewrite ps_eqn|].
      symmetry. induction H as [|t ts Ht _ IH]; [reflexivity|]. rewrite ps_and by assumption.
      exact IH. }
    rewrite E. reflexivity.
  Qed.

  Lemma excluder_spec (T : Type) (pt : str -> res T) score (run : T -> outcome) ts xs :
    Forall is_test ts -> Forall2 (fun t x => pt t = Ok x) ts xs ->
    (forall x, In x xs -> forall e, run x <> Raise e) ->
    exists b, excluder pt score run ts = Ok b /\
      (b = true <-> exists x, In x xs /\ run x = Val true).
  Proof.
    intros H F HR. eexists. split; [now apply (excluder_union pt score run ts xs)|].
    rewrite existsb_exists. split; intros (x & Hx & E); exists x; split; auto.
    - unfold excludes in E. destruct (run x); congruence.
    - unfold excludes. now rewrite E.
  Qed.

  Lemma Forall2_perm {A B} (R : A -> B -> Prop) l l' m :
    Permutation l l' -> Forall2 R l m -> exists m', Permutation m m' /\ Forall2 R l' m'.
  Proof.
    intros P. revert m. induction P; intros m F.
    - inversion F; subst. exists []. split; constructor.
    - inversion F; subst. destruct (IHP _ H3) as (m' & P' & F'). exists (y :: m'). split; constructor; auto.
    - inversion F as [|? b1 ? ? R1 F1]; subst. inversion F1 as [|? b2 ? m2 R2 F2]; subst.
      exists (b2 :: b1 :: m2). split; [constructor|]. repeat constructor; auto.
    - destruct (IHP1 _ F) as (m1 & Q1 & F1). destruct (IHP2 _ F1) as (m2 & Q2 & F2).
      exists m2. split; [etransitivity; eauto|assumption].
  Qed.

  Lemma excluder_perm (T : Type) (pt : str -> res T) score (run : T -> outcome) ts ts' xs :
    Permutation ts ts' ->
    Forall is_test ts -> Forall2 (fun t x => pt t = Ok x) ts xs ->
    (forall x, In x xs -> forall e, run x <> Raise e) ->
    excluder pt score run ts = excluder pt score run ts'.
  Proof.
    intros P H F HR. destruct (Forall2_perm _ _ _ _ P F) as (xs' & PX & F').
    rewrite (excluder_union pt score run ts xs) by assumption.
    rewrite (excluder_union pt score run ts' xs').
    - f_equal. now apply existsb_perm'.
    - now rewrite <- P.
    - assumption.
    - intros x Hx. apply HR. eapply Permutation_in; [symmetry|]; eassumption.
  Qed.

  Lemma excluder_not_crashes :
    exists ts, forall (T : Type) (pt : str -> res T) score run x,
      pt ($"a") = Ok x -> excluder pt score run ts = Err AttributeErr.
  Proof.
    exists [$"not"; $"a"]. intros T pt score run x Hx. unfold excluder, parse.
    change (parse_sequence pt _ _ [] []) with (ps pt [$"not"; $"a"] [] []).
    rewrite ps_not_test; [|now apply NOT_iff|apply (classify_spec ($"a"))].
    rewrite Hx. cbn [bindr]. rewrite ps_eqn. reflexivity.
  Qed.
End Statements.
