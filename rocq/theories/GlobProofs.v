From Coq Require Import List NArith ZArith Bool Lia ZifyBool.
From Verif Require Import Py Re GlobModel GlobSpec.
Import ListNotations.

(** * Tokens *)
Inductive tok :=
| KLit (c : char) | KStar | KAny | KSet (neg : bool) (rs : list (char * char))
| KMid | KFirst | KLast.

Definition set_body (rs : list (char * char)) : str := flat_map range_text rs.
Definition text (k : tok) : str :=
  match k with
  | KLit c => [c] | KStar => $"*" | KAny => $"?"
  | KSet neg rs => $"[" ++ (if neg then $"!" else []) ++ set_body rs ++ $"]"
  | KMid => $"/**/" | KFirst => $"**/" | KLast => $"/**"
  end.
Definition texts (l : list tok) : str := flat_map text l.
(** The regular expression text. *)
Definition rtext (k : tok) : str :=
  match k with
  | KLit c => escape_c c | KStar => $"[^/]*" | KAny => $"[^/]"
  | KSet neg rs => $"[" ++ (if neg then $"^" else []) ++ set_body rs ++ $"]"
  | KMid => $"(?:/|/.+/)" | KFirst => $"(?:.+/)?" | KLast => $"(?:/.+)?"
  end.
Definition rtexts (l : list tok) : str := flat_map rtext l.
(** The compiled regular expression. *)
Definition noslash : cls := Cls false true [CChar SLASH].
Definition range_item (r : char * char) : citem :=
  if N.eqb (fst r) (snd r) then CChar (fst r) else CRange (fst r) (snd r).
Definition dots : re := Cat (Chr dot_cls) (Star true dot_cls).
Definition chr (c : char) : re := Chr (char_cls false c).
Definition atom (k : tok) : re :=
  match k with
  | KLit c => chr c
  | KStar => Star true noslash
  | KAny => Chr noslash
  | KSet neg rs => Chr (Cls false neg (map range_item rs))
  | KMid => Alt (Cat Eps (chr SLASH)) (Cat (Cat (Cat Eps (chr SLASH)) dots) (chr SLASH))
  | KFirst => Opt true (Cat (Cat Eps dots) (chr SLASH))
  | KLast => Opt true (Cat (Cat Eps (chr SLASH)) dots)
  end.

(** Well-formed token lists; the conditions on what follows keep the splitting
    regular expression from finding a longer token. *)
Definition lit_ok (c : char) : bool := negb (existsb (N.eqb c) [42;63;91]%N).
Definition sc_ok (c : char) : bool := negb (existsb (N.eqb c) [93;92;45;94;33;47]%N).
Definition r_ok (r : char * char) : bool := sc_ok (fst r) && sc_ok (snd r) && (fst r <=? snd r)%N.
Definition head_is (c : char) (s : str) : bool := match s with x :: _ => N.eqb x c | [] => false end.
Fixpoint toks_ok (l : list tok) : Prop :=
  match l with
  | [] => True
  | k :: t =>
      toks_ok t /\
      match k with
      | KLit c => lit_ok c = true /\ (c = SLASH -> starts_with ($"**") (texts t) = false)
      | KStar => head_is 42%N (texts t) = false
      | KSet _ rs => rs <> [] /\ forallb r_ok rs = true
      | KLast => head_is 47%N (texts t) = false
      | _ => True
      end
  end.

(** * Splitting *)
Notation first := (fun (s' : str) (cs : caps) => Some (s', cs)).
Lemma sc_ok_neq c x : sc_ok c = true -> In x [93;92;45;94;33;47]%N -> N.eqb c x = false.
Proof.
  unfold sc_ok. intros H Hin. apply negb_true_iff in H.
  destruct (N.eqb c x) eqn:E; [|reflexivity]. rewrite <- H. symmetry.
  apply existsb_exists. exists x. auto.
Qed.
Lemma set_body_chars rs c : forallb r_ok rs = true -> In c (set_body rs) ->
  sc_ok c = true \/ c = 45%N.
Proof.
  intros H Hin. apply in_flat_map in Hin as (r & Hr & Hc). rewrite forallb_forall in H.
  specialize (H r Hr). unfold r_ok in H. rewrite !andb_true_iff in H. destruct H as [[H1 H2] _].
  unfold range_text in Hc. destruct (N.eqb (fst r) (snd r)).
  - destruct Hc as [<-|[]]. auto.
  - destruct Hc as [<-|[<-|[<-|[]]]]; auto.
Qed.
Lemma set_body_nobracket rs c : forallb r_ok rs = true -> In c (set_body rs) -> N.eqb c 93 = false.
Proof.
  intros H Hin. destruct (set_body_chars rs c H Hin) as [Hc| ->]; [|reflexivity].
  apply sc_ok_neq; [exact Hc|now left].
Qed.
Lemma set_body_head rs : rs <> [] -> forallb r_ok rs = true ->
  exists c t, set_body rs = c :: t /\ sc_ok c = true.
Proof.
  intros Hn H. destruct rs as [|r rs]; [easy|]. cbn [forallb] in H. apply andb_true_iff in H as [Hr _].
  unfold r_ok in Hr. rewrite !andb_true_iff in Hr. destruct Hr as [[H1 _] _].
  unfold set_body. cbn [flat_map]. unfold range_text. destruct (N.eqb (fst r) (snd r)); cbn [app]; eauto.
Qed.

(** The seven alternatives. *)
Definition nobr : cls := Cls false true [CChar 93%N].
Lemma mem_nobr c : mem nobr c = negb (N.eqb c 93).
Proof. unfold nobr. rewrite mem_neg. cbn. rewrite orb_false_r. now rewrite N.eqb_sym. Qed.
Lemma mem_chr c x : mem (char_cls false c) x = N.eqb c x.
Proof. unfold char_cls. rewrite mem_pos. cbn. now rewrite orb_false_r. Qed.
Definition litre (s : str) : re := fold_left (fun r c => Cat r (chr c)) s Eps.
Lemma split_re_eq : split_re = Cat Eps (Grp 1
  (Alt (Alt (Alt (Alt (Alt (Alt (litre ($"/**/")) (litre ($"**/"))) (litre ($"/**")))
     (litre ($"*"))) (litre ($"?")))
     (Cat (Cat (litre ($"[!")) (Cat (Chr nobr) (Star true nobr))) (chr 93%N)))
     (Cat (Cat (litre ($"[")) (Cat (Chr nobr) (Star true nobr))) (chr 93%N)))).
Proof. reflexivity. Qed.

Lemma m_litre {R} n0 w : forall r s cs (k : str -> caps -> option R),
  m n0 (fold_left (fun r c => Cat r (chr c)) w r) s cs k =
  m n0 r s cs (fun s' cs' => if starts_with w s' then k (skipn (length w) s') cs' else None).
Proof.
  induction w as [|c w IH]; intros r s cs k; cbn [fold_left].
  - reflexivity.
  - rewrite IH. cbn [m chr].
    assert (E : forall A (f g : str -> caps -> option A), (forall s c, f s c = g s c) ->
      m n0 r s cs f = m n0 r s cs g).
    { clear. revert s cs. induction r; intros s cs A f g H; cbn [m].
      - apply H.
      - destruct s; [reflexivity|]. destruct (mem p c); [apply H|reflexivity].
      - apply IHr1. intros. now apply IHr2.
      - rewrite (IHr1 s cs A f g H), (IHr2 s cs A f g H). reflexivity.
      - destruct greedy.
        + induction s as [|c t IH]; cbn [star_g]; [apply H|]. rewrite IH, !H. reflexivity.
        + induction s as [|c t IH]; cbn [star_l]; rewrite H; [reflexivity|]. now rewrite IH.
      - destruct greedy; rewrite (IHr s cs A f g H), H; reflexivity.
      - apply IHr. intros. apply H.
      - destruct (Nat.eqb (length s) n0); [apply H|reflexivity].
      - destruct (at_end s); [apply H|reflexivity]. }
    apply E. intros s' cs'. destruct s' as [|x t]; cbn [starts_with]; [reflexivity|].
    rewrite mem_chr. destruct (N.eqb c x); reflexivity.
Qed.
Lemma m_litre0 {R} n0 w s cs (k : str -> caps -> option R) :
  m n0 (litre w) s cs k = if starts_with w s then k (skipn (length w) s) cs else None.
Proof. unfold litre. rewrite m_litre. reflexivity. Qed.

Definition set_cont {R} (s : str) (cs : caps) (k : str -> caps -> option R) : option R :=
  match s with
  | c :: t => if mem nobr c then star_g (mem nobr) t (fun s' =>
      match s' with d :: u => if mem (char_cls false 93%N) d then k u cs else None | [] => None end) else None
  | [] => None
  end.
Lemma set_cont_run {R} b rest cs (k : str -> caps -> option R) x : b <> [] ->
  (forall c, In c b -> N.eqb c 93 = false) -> k rest cs = Some x ->
  set_cont (b ++ 93%N :: rest) cs k = Some x.
Proof.
  intros Hb H Hk. destruct b as [|c b]; [easy|]. cbn [app set_cont].
  rewrite mem_nobr, (H c (or_introl eq_refl)). cbn [negb].
  apply star_g_run.
  - apply forallb_forall. intros d Hd. rewrite mem_nobr, (H d (or_intror Hd)). reflexivity.
  - cbn [stops]. now rewrite mem_nobr.
  - rewrite mem_chr. cbn [N.eqb Pos.eqb]. exact Hk.
Qed.

Definition kk (s : str) : str -> caps -> option (str * caps) :=
  fun s' cs' => Some (s', (1, firstn (length s - length s') s) :: cs').
Lemma split_m n0 s : m n0 split_re s [] first =
  (let k := kk s in
   let lit w := if starts_with w s then k (skipn (length w) s) [] else None in
   orelse (orelse (orelse (orelse (orelse (orelse (lit ($"/**/")) (lit ($"**/"))) (lit ($"/**")))
     (lit ($"*"))) (lit ($"?")))
     (if starts_with ($"[!") s then set_cont (skipn 2 s) [] k else None))
     (if starts_with ($"[") s then set_cont (skipn 1 s) [] k else None)).
Proof. rewrite split_re_eq. cbn [m]. rewrite !m_litre0. reflexivity. Qed.

Lemma firstn_text (a rest : str) : firstn (length (a ++ rest) - length rest) (a ++ rest) = a.
Proof. rewrite app_length, Nat.add_sub. rewrite firstn_app, Nat.sub_diag, firstn_all. cbn. apply app_nil_r. Qed.
Lemma kk_text a rest : kk (a ++ rest) rest [] = Some (rest, [(1, a)]).
Proof. unfold kk. now rewrite firstn_text. Qed.

Lemma split_lit n0 c rest : lit_ok c = true -> (c = SLASH -> starts_with ($"**") rest = false) ->
  m n0 split_re (c :: rest) [] first = None.
Proof.
  intros H HS. rewrite split_m. cbv zeta.
  unfold lit_ok in H. apply negb_true_iff in H. cbn [existsb] in H.
  repeat (apply orb_false_iff in H as [? H]).
  change ($"/**/") with (SLASH :: $"**" ++ $"/"). change ($"/**") with (SLASH :: $"**").
  change ($"**/") with [42;42;47]%N. change ($"*") with [42]%N. change ($"?") with [63]%N.
  change ($"[!") with [91;33]%N. change ($"[") with [91]%N.
  cbn [starts_with].
  rewrite (N.eqb_sym SLASH c), (N.eqb_sym 42 c), (N.eqb_sym 63 c), (N.eqb_sym 91 c).
  repeat match goal with H : N.eqb c _ = false |- _ => rewrite H end. cbn [andb orelse].
  destruct (N.eqb c SLASH) eqn:E; [|reflexivity]. apply N.eqb_eq in E. specialize (HS E).
  cbn [andb]. rewrite HS.
  replace (starts_with (($"**") ++ ($"/")) rest) with false; [reflexivity|].
  symmetry. destruct (starts_with (($"**") ++ ($"/")) rest) eqn:E2; [|reflexivity].
  rewrite <- HS. clear - E2. destruct rest as [|a [|b rest]]; try discriminate.
  - cbn in E2. rewrite andb_false_r in E2. discriminate.
  - cbn in E2 |- *. rewrite !andb_true_iff in E2. destruct E2 as (-> & -> & _). reflexivity.
Qed.

Lemma split_tok n0 k rest : (forall c, k <> KLit c) ->
  match k with
  | KStar => head_is 42%N rest = false
  | KSet _ rs => rs <> [] /\ forallb r_ok rs = true
  | KLast => head_is 47%N rest = false
  | _ => True
  end ->
  m n0 split_re (text k ++ rest) [] first = Some (rest, [(1, text k)]).
Proof.
  intros Hk H. rewrite split_m. cbv zeta. destruct k.
  - now destruct (Hk c).
  - cbn [text]. destruct rest as [|x t].
    + reflexivity.
    + cbn in H. cbn -[kk N.eqb]. rewrite (N.eqb_sym 42 x), H. cbn -[kk]. apply (kk_text ($"*")).
  - cbn -[kk]. apply (kk_text ($"?")).
  - destruct H as [Hn H]. destruct (set_body_head rs Hn H) as (c & t & Eb & Hc).
    assert (Hne : set_body rs <> []) by now rewrite Eb.
    destruct neg; cbn [text].
    + rewrite <- !app_assoc. change (($"]") ++ rest) with (93%N :: rest).
      cbn [lit app starts_with]. cbn -[kk set_cont set_body].
      rewrite (set_cont_run _ rest [] _ _ Hne (fun c Hc => set_body_nobracket rs c H Hc) (eq_refl _)).
      cbn [orelse]. unfold kk. f_equal. f_equal. f_equal. f_equal.
      etransitivity; [|apply (firstn_text (($"[!") ++ set_body rs ++ ($"]")) rest)].
      rewrite <- !app_assoc. reflexivity.
    + rewrite app_nil_l, <- !app_assoc. change (($"]") ++ rest) with (93%N :: rest).
      assert (E : forall b, starts_with ($"[!") (($"[") ++ set_body rs ++ b) = false).
      { intros b. rewrite Eb. cbn -[N.eqb]. rewrite (N.eqb_sym 33 c).
        rewrite (sc_ok_neq c 33 Hc); [reflexivity|cbn; tauto]. }
      rewrite E. cbn -[kk set_cont set_body].
      rewrite (set_cont_run _ rest [] _ _ Hne (fun c Hc => set_body_nobracket rs c H Hc) (eq_refl _)).
      cbn. unfold kk. f_equal. f_equal. f_equal. f_equal.
      etransitivity; [|apply (firstn_text (($"[") ++ set_body rs ++ ($"]")) rest)].
      rewrite <- !app_assoc. reflexivity.
  - cbn -[kk]. apply (kk_text ($"/**/")).
  - cbn -[kk]. apply (kk_text ($"**/")).
  - cbn [text]. destruct rest as [|x t].
    + reflexivity.
    + cbn in H. cbn -[kk N.eqb]. rewrite (N.eqb_sym 47 x), H. cbn -[kk]. apply (kk_text ($"/**")).
Qed.

(** * The regular expression text *)
Lemma lit_ok_escape sk : forallb lit_ok sk = true -> translate_part sk = re_escape sk.
Proof.
  intros H. unfold translate_part.
  assert (F : forall w, existsb (fun c => negb (lit_ok c)) w = true -> str_eqb sk w = false).
  { intros w Hw. destruct (str_eqb sk w) eqn:E; [|reflexivity]. apply str_eqb_eq in E. subst w.
    apply existsb_exists in Hw as (c & Hc & Hl). rewrite forallb_forall in H. rewrite (H c Hc) in Hl.
    discriminate. }
  rewrite !F by reflexivity.
  assert (G : forall w, starts_with (91%N :: w) sk = false).
  { intros w. destruct sk as [|c sk]; [reflexivity|]. cbn [starts_with]. cbn [forallb] in H.
    apply andb_true_iff in H as [Hc _]. rewrite N.eqb_sym.
    unfold lit_ok in Hc. apply negb_true_iff in Hc. cbn [existsb] in Hc.
    repeat (apply orb_false_iff in Hc as [? Hc]).
    match goal with H : N.eqb c 91 = false |- _ => now rewrite H end. }
  change ($"[!") with (91%N :: [33%N]). change ($"[") with [91%N]. now rewrite !G.
Qed.
Lemma slice_mid (a b c : str) : slice (a ++ b ++ c) (Some (Z.of_nat (length a))) (Some (- Z.of_nat (length c))%Z) = b \/ c = [].
Proof.
  destruct c as [|x c]; [now right|left]. unfold slice, slice_bound. rewrite !app_length.
  destruct (Z.ltb_spec (Z.of_nat (length a)) 0); [lia|].
  destruct (Z.ltb_spec (- Z.of_nat (length (x :: c))) 0) as [_|H0]; [|cbn [length] in H0; lia].
  set (n := length (x :: c)).
  replace (Z.min (Z.of_nat (length a)) (Z.of_nat (length a + (length b + n)))) with (Z.of_nat (length a)) by lia.
  replace (Z.to_nat (Z.max 0 (- Z.of_nat n + Z.of_nat (length a + (length b + n))) - Z.of_nat (length a)))
    with (length b) by lia.
  rewrite Nat2Z.id, skipn_app, Nat.sub_diag, skipn_all. cbn [app skipn].
  rewrite firstn_app, Nat.sub_diag, firstn_all. cbn. apply app_nil_r.
Qed.
Lemma tok_part k : (forall c, k <> KLit c) ->
  match k with KSet _ rs => rs <> [] /\ forallb r_ok rs = true | _ => True end ->
  translate_part (text k) = rtext k.
Proof.
  intros Hk H. destruct k; try reflexivity.
  - now destruct (Hk c).
  - destruct H as [Hn H]. destruct (set_body_head rs Hn H) as (c & t & Eb & Hc).
    destruct neg; cbn [text rtext].
    + change (($"[") ++ ($"!") ++ set_body rs ++ ($"]")) with (($"[!") ++ set_body rs ++ ($"]")).
      change (translate_part (($"[!") ++ set_body rs ++ ($"]"))) with
        (($"[^") ++ slice (($"[!") ++ set_body rs ++ ($"]")) (Some 2%Z) (Some (-1)%Z) ++ ($"]")).
      destruct (slice_mid ($"[!") (set_body rs) ($"]")) as [E|E]; [|discriminate].
      change 2%Z with (Z.of_nat (length ($"[!"))). change (-1)%Z with (- Z.of_nat (length ($"]")))%Z.
      rewrite E. reflexivity.
    + rewrite !app_nil_l.
      assert (E : forall b, starts_with ($"[!") (($"[") ++ set_body rs ++ b) = false).
      { intros b. rewrite Eb. cbn -[N.eqb]. rewrite (N.eqb_sym 33 c).
        rewrite (sc_ok_neq c 33 Hc); [reflexivity|cbn; tauto]. }
      unfold translate_part. rewrite E.
      change (($"[") ++ slice (($"[") ++ set_body rs ++ ($"]")) (Some 1%Z) (Some (-1)%Z) ++ ($"]") =
        ($"[") ++ set_body rs ++ ($"]")).
      destruct (slice_mid ($"[") (set_body rs) ($"]")) as [E'|E']; [|discriminate].
      change 1%Z with (Z.of_nat (length ($"["))). change (-1)%Z with (- Z.of_nat (length ($"]")))%Z.
      rewrite E'. reflexivity.
Qed.

Lemma text_nonempty k : text k <> [].
Proof. destruct k; easy. Qed.
Lemma re_escape_app a b : re_escape (a ++ b) = re_escape a ++ re_escape b.
Proof. apply flat_map_app. Qed.
Lemma split_toks n0 l : forall fuel sk, toks_ok l -> forallb lit_ok sk = true ->
  length (texts l) <= fuel ->
  let '(r, tail) := scan_from n0 fuel split_re sk (texts l) in
  concat (map translate_part (split_list r tail)) = re_escape (rev sk) ++ rtexts l.
Proof.
  induction l as [|k l IH]; intros fuel sk Hl Hsk Hf.
  - assert (Hr : forallb lit_ok (rev sk) = true).
    { rewrite forallb_forall in *. intros c Hc. apply Hsk. now apply in_rev. }
    destruct fuel; cbn; rewrite ?app_nil_r; apply lit_ok_escape, Hr.
  - cbn [texts flat_map] in *. fold (texts l) in *. destruct Hl as [Hl Hk].
    assert (Hpos : 0 < length (text k)).
    { pose proof (text_nonempty k). destruct (text k); [easy|cbn; lia]. }
    rewrite app_length in Hf.
    destruct fuel as [|fuel]; [lia|].
    assert (D : (exists c, k = KLit c) \/ (forall c, k <> KLit c)).
    { destruct k; [left; eauto|right; discriminate..]. }
    destruct D as [(c & ->)|D].
    + destruct Hk as [Hc Hs]. cbn [text app scan_from rtexts flat_map].
      rewrite (split_lit n0 c (texts l) Hc Hs).
      specialize (IH fuel (c :: sk) Hl). destruct (scan_from n0 fuel split_re (c :: sk) (texts l)) as [r tail].
      rewrite IH.
      * cbn [rev]. rewrite re_escape_app, <- app_assoc. f_equal. cbn [re_escape flat_map].
        now rewrite app_nil_r.
      * cbn [forallb]. now rewrite Hc.
      * cbn in Hf. lia.
    + assert (E : m n0 split_re (text k ++ texts l) [] first = Some (texts l, [(1, text k)])).
      { apply split_tok; [exact D|]. destruct k; auto. }
      assert (P : translate_part (text k) = rtext k).
      { apply tok_part; [exact D|]. destruct k; auto. }
      destruct (text k ++ texts l) as [|x xs] eqn:Ex.
      { apply (f_equal (@length _)) in Ex. rewrite app_length in Ex. cbn in Ex. lia. }
      cbn [scan_from]. rewrite E.
      rewrite <- Ex.
      destruct (Nat.ltb_spec (length (texts l)) (length (text k ++ texts l))) as [_|L];
        [|rewrite app_length in L; lia].
      rewrite firstn_text.
      specialize (IH fuel [] Hl eq_refl). destruct (scan_from n0 fuel split_re [] (texts l)) as [r tail].
      cbn [split_list map concat rtexts flat_map]. rewrite IH by lia.
      rewrite P, lit_ok_escape; [reflexivity|].
      rewrite forallb_forall in *. intros c Hc. apply Hsk. now apply in_rev.
Qed.
Lemma translate_toks l : toks_ok l ->
  concat (map translate_part (re_split split_re (texts l))) = rtexts l.
Proof.
  intros H. unfold re_split, scan.
  pose proof (split_toks (length (texts l)) l (length (texts l)) [] H eq_refl (le_n _)) as E.
  destruct (scan_from _ _ _ _ _) as [r tail]. exact E.
Qed.

(** * Compiling it *)
Definition quant_char (c : char) : bool := N.eqb c 42 || N.eqb c 43 || N.eqb c 63 || N.eqb c 123.
Definition next_ok (s : str) : Prop := match s with [] => True | c :: _ => quant_char c = false end.
Lemma parse_quant_next s : next_ok s -> parse_quant s = COk (QNone, s).
Proof.
  destruct s as [|c t]; [reflexivity|]. cbn [next_ok parse_quant]. unfold quant_char.
  rewrite !orb_false_iff. intros [[[-> ->] ->] ->]. reflexivity.
Qed.
Lemma quantified_next r s : next_ok s -> quantified r s = COk (r, s).
Proof. intros H. unfold quantified. now rewrite parse_quant_next. Qed.
Lemma quantified_star p s : next_ok s -> quantified (Chr p) (42%N :: s) = COk (Star true p, s).
Proof.
  intros H. unfold quantified. destruct s as [|c t]; [reflexivity|].
  cbn [next_ok] in H. unfold quant_char in H. rewrite !orb_false_iff in H. destruct H as [[[H1 H2] H3] H4].
  cbn [parse_quant N.eqb Pos.eqb]. now rewrite H1, H2, H3, H4.
Qed.
Lemma quantified_opt r s : next_ok s -> quantified r (63%N :: s) = COk (Opt true r, s).
Proof.
  intros H. unfold quantified. destruct s as [|c t]; [reflexivity|].
  cbn [next_ok] in H. unfold quant_char in H. rewrite !orb_false_iff in H. destruct H as [[[H1 H2] H3] H4].
  cbn [parse_quant N.eqb Pos.eqb]. now rewrite H1, H2, H3, H4.
Qed.

Lemma set_items_body rs : forall fuel first acc rest, forallb r_ok rs = true ->
  (first = true -> rs <> []) -> length (set_body rs) < fuel ->
  set_items fuel first acc (set_body rs ++ 93%N :: rest) = COk (rev acc ++ map range_item rs, rest).
Proof.
  induction rs as [|[a b] rs IH]; intros fuel first acc rest H Hf L.
  - destruct fuel; [cbn in L; lia|]. cbn -[rev]. destruct first; [now destruct Hf|].
    cbn. now rewrite app_nil_r.
  - cbn [forallb] in H. apply andb_true_iff in H as [Hr H]. unfold r_ok in Hr.
    rewrite !andb_true_iff in Hr. cbn [fst snd] in Hr. destruct Hr as [[Ha Hb] Hle].
    pose proof (sc_ok_neq a 93 Ha) as A1. pose proof (sc_ok_neq a 92 Ha) as A2.
    pose proof (sc_ok_neq b 93 Hb) as B1. pose proof (sc_ok_neq b 92 Hb) as B2.
    specialize (A1 ltac:(cbn; tauto)). specialize (A2 ltac:(cbn; tauto)).
    specialize (B1 ltac:(cbn; tauto)). specialize (B2 ltac:(cbn; tauto)).
    unfold set_body in L |- *. cbn [flat_map map] in L |- *. fold (set_body rs) in L |- *.
    unfold range_text in L |- *. unfold range_item at 1. cbn [fst snd] in L |- *.
    destruct (N.eqb a b) eqn:E.
    + cbn [app length] in L |- *. destruct fuel as [|fuel]; [lia|].
      cbn [set_items]. rewrite A1. cbn [andb]. cbn [set_char]. rewrite A2. cbn [cbind].
      assert (T : exists d t2, set_body rs ++ 93%N :: rest = d :: t2 /\ N.eqb d 45 = false).
      { destruct rs as [|r rs'].
        - exists 93%N, rest. split; reflexivity.
        - destruct (set_body_head (r :: rs') ltac:(easy) H) as (c & t & Eb & Hc).
          rewrite Eb. exists c, (t ++ 93%N :: rest). split; [reflexivity|].
          apply sc_ok_neq; [exact Hc|cbn; tauto]. }
      destruct T as (d & t2 & ET & Ed). rewrite ET, Ed, <- ET.
      rewrite IH; [|exact H|discriminate|lia]. cbn [rev]. now rewrite <- app_assoc.
    + cbn [app length] in L |- *. destruct fuel as [|fuel]; [lia|].
      cbn [set_items]. rewrite A1. cbn [andb]. cbn [set_char]. rewrite A2. cbn [cbind].
      change (N.eqb 45 45) with true. cbn iota. rewrite B1. cbn [set_char]. rewrite B2. cbn [cbind]. rewrite Hle.
      rewrite IH; [|exact H|discriminate|lia]. cbn [rev]. now rewrite <- app_assoc.
Qed.
Lemma parse_set_body (neg : bool) rs rest : rs <> [] -> forallb r_ok rs = true ->
  parse_set false ((if neg then $"^" else []) ++ set_body rs ++ 93%N :: rest) =
  COk (Cls false neg (map range_item rs), rest).
Proof.
  intros Hn H. destruct (set_body_head rs Hn H) as (c & t & Eb & Hc). unfold parse_set.
  assert (E : set_items (S (length (set_body rs ++ 93%N :: rest))) true [] (set_body rs ++ 93%N :: rest)
              = COk (map range_item rs, rest)).
  { rewrite set_items_body; [reflexivity|exact H|auto|]. rewrite app_length. lia. }
  destruct neg.
  - change (($"^") ++ set_body rs ++ 93%N :: rest) with (94%N :: (set_body rs ++ 93%N :: rest)).
    cbn iota. change (N.eqb 94 94) with true. cbn iota. now rewrite E.
  - rewrite app_nil_l. rewrite Eb in *. cbn [app] in *.
    rewrite (sc_ok_neq c 94 Hc) by (cbn; tauto). now rewrite E.
Qed.
Lemma pa_set fuel neg rs rest n cur : rs <> [] -> forallb r_ok rs = true -> next_ok rest ->
  pa false (S fuel) (rtext (KSet neg rs) ++ rest) n None cur =
  pa false fuel rest n None (Cat cur (atom (KSet neg rs))).
Proof.
  intros Hn H Hr. cbn [rtext atom].
  replace ((($"[") ++ (if neg then $"^" else []) ++ set_body rs ++ ($"]")) ++ rest)
    with (91%N :: ((if neg then $"^" else []) ++ set_body rs ++ 93%N :: rest))
    by (rewrite <- !app_assoc; reflexivity).
  cbn [pa N.eqb Pos.eqb]. rewrite parse_set_body by assumption. cbn [cbind].
  rewrite quantified_next by assumption. reflexivity.
Qed.
Lemma special_cases c : is_special c = false -> forallb (fun x => negb (N.eqb c x)) [41;124;40;91;46;92;94;36;42;43;63;123]%N = true.
Proof.
  unfold is_special. cbn [existsb forallb]. intros H.
  repeat (apply orb_false_iff in H as [? H]).
  repeat match goal with H : N.eqb c _ = false |- _ => rewrite H; clear H end. reflexivity.
Qed.
Lemma special_escape c : is_special c = true -> escape_item c = COk (CChar c).
Proof.
  unfold is_special. intros H. apply existsb_exists in H as (x & Hx & E). apply N.eqb_eq in E. subst x.
  cbn in Hx. repeat (destruct Hx as [<-|Hx]; [reflexivity|]). destruct Hx.
Qed.
Lemma pa_lit fuel c rest n cur : next_ok rest ->
  pa false (S fuel) (escape_c c ++ rest) n None cur = pa false fuel rest n None (Cat cur (chr c)).
Proof.
  intros Hr. unfold escape_c. destruct (is_special c) eqn:E; cbn [app].
  - cbn [pa N.eqb Pos.eqb]. rewrite special_escape by assumption. cbn [cbind].
    rewrite quantified_next by assumption. reflexivity.
  - apply special_cases in E. cbn [forallb] in E. rewrite !andb_true_iff, !negb_true_iff in E.
    destruct E as (E1 & E2 & E3 & E4 & E5 & E6 & E7 & E8 & E9 & E10 & E11 & E12 & _).
    cbn [pa]. rewrite E1, E2, E3, E4, E5, E6, E7, E8, E9, E10, E11, E12. cbn [orb andb].
    rewrite quantified_next by assumption. reflexivity.
Qed.
Lemma pa_group f t n cur : pa false (S f) (40%N :: 63%N :: 58%N :: t) n None cur =
  cbind (pa false f t n None Eps) (fun '(r, t', n'') =>
    match t' with
    | [] => CErr
    | _ :: t'' => cbind (quantified r t'') (fun '(r', t3) => pa false f t3 n'' None (Cat cur r'))
    end).
Proof. reflexivity. Qed.
Lemma pa_mid_inner f rest n :
  pa false (8 + f) (($"/|/.+/)") ++ rest) n None Eps = COk (atom KMid, 41%N :: rest, n).
Proof. reflexivity. Qed.
Lemma pa_first_inner f rest n :
  pa false (5 + f) (($".+/)") ++ rest) n None Eps = COk (Cat (Cat Eps dots) (chr SLASH), 41%N :: rest, n).
Proof. reflexivity. Qed.
Lemma pa_last_inner f rest n :
  pa false (5 + f) (($"/.+)") ++ rest) n None Eps = COk (Cat (Cat Eps (chr SLASH)) dots, 41%N :: rest, n).
Proof. reflexivity. Qed.
Lemma pa_tok k fuel rest n cur : 
  match k with KSet _ rs => rs <> [] /\ forallb r_ok rs = true | _ => True end -> next_ok rest ->
  length (rtext k) <= fuel ->
  pa false (S fuel) (rtext k ++ rest) n None cur = pa false fuel rest n None (Cat cur (atom k)).
Proof.
  intros Hk Hr L. destruct k.
  - now apply pa_lit.
  - change (rtext KStar ++ rest) with (91%N :: ($"^/]") ++ 42%N :: rest). cbn [pa N.eqb Pos.eqb].
    change (parse_set false (($"^/]") ++ 42%N :: rest)) with (COk (noslash, 42%N :: rest)).
    cbn [cbind]. rewrite quantified_star by assumption. reflexivity.
  - change (rtext KAny ++ rest) with (91%N :: ($"^/]") ++ rest). cbn [pa N.eqb Pos.eqb].
    change (parse_set false (($"^/]") ++ rest)) with (COk (noslash, rest)).
    cbn [cbind]. rewrite quantified_next by assumption. reflexivity.
  - destruct Hk. now apply pa_set.
  - change (rtext KMid ++ rest) with (40%N :: 63%N :: 58%N :: ($"/|/.+/)") ++ rest).
    rewrite pa_group. replace fuel with (8 + (fuel - 8)) at 1 by (cbn in L; lia).
    rewrite pa_mid_inner. cbn [cbind]. rewrite quantified_next by assumption. reflexivity.
  - change (rtext KFirst ++ rest) with (40%N :: 63%N :: 58%N :: ($".+/)") ++ 63%N :: rest).
    rewrite pa_group. replace fuel with (5 + (fuel - 5)) at 1 by (cbn in L; lia).
    rewrite pa_first_inner. cbn [cbind]. rewrite quantified_opt by assumption. reflexivity.
  - change (rtext KLast ++ rest) with (40%N :: 63%N :: 58%N :: ($"/.+)") ++ 63%N :: rest).
    rewrite pa_group. replace fuel with (5 + (fuel - 5)) at 1 by (cbn in L; lia).
    rewrite pa_last_inner. cbn [cbind]. rewrite quantified_opt by assumption. reflexivity.
Qed.

Lemma rtext_head k rest : 
  match k with KSet _ rs => rs <> [] /\ forallb r_ok rs = true | KLit c => lit_ok c = true | _ => True end ->
  next_ok (rtext k ++ rest).
Proof.
  intros H. destruct k; try reflexivity.
  cbn [rtext]. unfold escape_c. destruct (is_special c) eqn:E; [reflexivity|].
  apply special_cases in E. cbn [forallb] in E. rewrite !andb_true_iff, !negb_true_iff in E.
  cbn [app next_ok]. unfold quant_char. destruct E as (_ & _ & _ & _ & _ & _ & _ & _ & -> & -> & -> & -> & _).
  reflexivity.
Qed.
Lemma rtexts_head l rest : toks_ok l -> next_ok rest -> next_ok (rtexts l ++ rest).
Proof.
  intros H Hr. destruct l as [|k l]; [exact Hr|]. cbn [rtexts flat_map]. rewrite <- app_assoc.
  apply rtext_head. destruct H as [_ H]. destruct k; tauto.
Qed.
Lemma rtext_nonempty k : 0 < length (rtext k).
Proof. destruct k; cbn [rtext]; unfold escape_c; try destruct (is_special c); cbn; lia. Qed.
Lemma pa_toks l : forall fuel rest n cur, toks_ok l -> next_ok rest -> length (rtexts l) < fuel ->
  pa false fuel (rtexts l ++ rest) n None cur =
  pa false (fuel - length l) rest n None (fold_left Cat (map atom l) cur).
Proof.
  induction l as [|k l IH]; intros fuel rest n cur Hl Hr L.
  - cbn [length]. now rewrite Nat.sub_0_r.
  - destruct Hl as [Hl Hk]. cbn [rtexts flat_map] in L |- *. fold (rtexts l) in L |- *.
    rewrite app_length in L. rewrite <- app_assoc. cbn [length map fold_left].
    destruct fuel as [|fuel]; [lia|]. cbn [Nat.sub].
    pose proof (rtext_nonempty k).
    rewrite pa_tok.
    + apply IH; [assumption|assumption|lia].
    + destruct k; tauto.
    + now apply rtexts_head.
    + lia.
Qed.
Lemma length_toks l : length l <= length (rtexts l).
Proof.
  induction l as [|k l IH]; [easy|]. cbn [rtexts flat_map]. fold (rtexts l).
  rewrite app_length. pose proof (rtext_nonempty k). cbn. lia.
Qed.
Definition glob_re (l : list tok) : re := Cat (fold_left Cat (map atom l) (Cat Eps Bol)) Eol.
Lemma compile_toks l : toks_ok l -> compile false (($"^") ++ rtexts l ++ ($"$")) = COk (glob_re l).
Proof.
  intros H. unfold compile.
  change (($"^") ++ rtexts l ++ ($"$")) with (94%N :: rtexts l ++ ($"$")).
  cbn [length].
  change (pa false (S (S (length (rtexts l ++ ($"$"))))) (94%N :: rtexts l ++ ($"$")) 0 None Eps)
    with (pa false (S (length (rtexts l ++ ($"$")))) (rtexts l ++ ($"$")) 0 None (Cat Eps Bol)).
  pose proof (length_toks l).
  rewrite pa_toks; [|exact H|reflexivity|rewrite app_length; lia].
  replace (S (length (rtexts l ++ ($"$"))) - length l) with (2 + (length (rtexts l) - length l))
    by (rewrite app_length; cbn [length lit]; lia).
  reflexivity.
Qed.

(** * What it matches *)
Fixpoint Dl (n0 : nat) (l : list re) (s s' : str) : Prop :=
  match l with
  | [] => s' = s
  | r :: l => exists t, D n0 r s t /\ Dl n0 l t s'
  end.
Lemma D_fold n0 l : forall r s s', D n0 (fold_left Cat l r) s s' <-> exists t, D n0 r s t /\ Dl n0 l t s'.
Proof.
  induction l as [|x l IH]; intros r s s'; cbn [fold_left Dl].
  - split; [intros H; exists s'; auto|]. intros (t & H & ->). exact H.
  - rewrite IH. cbn [D]. split.
    + intros (t & (u & H1 & H2) & H3). eauto.
    + intros (u & H1 & (t & H2 & H3)). eauto.
Qed.
(** [TD l s s']: the tokens match a prefix of [s] leaving [s']. *)
Inductive TokMatch : tok -> str -> Prop :=
| tm_lit c : TokMatch (KLit c) [c]
| tm_any c : c <> SLASH -> TokMatch KAny [c]
| tm_star a : ~ In SLASH a -> TokMatch KStar a
| tm_set rs c : Exists (in_range c) rs -> TokMatch (KSet false rs) [c]
| tm_nset rs c : ~ Exists (in_range c) rs -> TokMatch (KSet true rs) [c]
| tm_mid0 : TokMatch KMid ($"/")
| tm_mid a : a <> [] -> ~ In NL a -> TokMatch KMid (SLASH :: a ++ ($"/"))
| tm_first0 : TokMatch KFirst []
| tm_first a : a <> [] -> ~ In NL a -> TokMatch KFirst (a ++ ($"/"))
| tm_last0 : TokMatch KLast []
| tm_last a : a <> [] -> ~ In NL a -> TokMatch KLast (SLASH :: a).
Inductive ToksMatch : list tok -> str -> Prop :=
| tms_nil : ToksMatch [] []
| tms_cons k l a b : TokMatch k a -> ToksMatch l b -> ToksMatch (k :: l) (a ++ b).

Lemma mem_noslash c : mem noslash c = negb (N.eqb c SLASH).
Proof. unfold noslash. rewrite mem_neg. unfold items_mem, item_mem. cbn [existsb]. rewrite orb_false_r. now rewrite N.eqb_sym. Qed.
Lemma mem_dot c : mem dot_cls c = negb (N.eqb c NL).
Proof. unfold dot_cls. rewrite mem_neg. unfold items_mem, item_mem. cbn [existsb]. rewrite orb_false_r. now rewrite N.eqb_sym. Qed.
Lemma mem_ranges rs c : items_mem (map range_item rs) c = true <-> Exists (in_range c) rs.
Proof.
  unfold items_mem. rewrite existsb_exists, Exists_exists. split.
  - intros (i & Hi & Hm). apply in_map_iff in Hi as (r & <- & Hr). exists r. split; [exact Hr|].
    unfold range_item in Hm. unfold in_range. destruct (N.eqb (fst r) (snd r)) eqn:E; cbn [item_mem] in Hm.
    + lia.
    + unfold between in Hm. lia.
  - intros (r & Hr & Hm). exists (range_item r). split; [now apply in_map|].
    unfold in_range in Hm. unfold range_item. destruct (N.eqb (fst r) (snd r)) eqn:E; cbn [item_mem].
    + lia.
    + unfold between. lia.
Qed.
Lemma forallb_noslash a : forallb (mem noslash) a = true <-> ~ In SLASH a.
Proof.
  rewrite forallb_forall. split.
  - intros H Hin. specialize (H _ Hin). rewrite mem_noslash in H. discriminate.
  - intros H x Hx. rewrite mem_noslash. destruct (N.eqb_spec x SLASH) as [->|]; [easy|reflexivity].
Qed.
Lemma forallb_dot a : forallb (mem dot_cls) a = true <-> ~ In NL a.
Proof.
  rewrite forallb_forall. split.
  - intros H Hin. specialize (H _ Hin). rewrite mem_dot in H. discriminate.
  - intros H x Hx. rewrite mem_dot. destruct (N.eqb_spec x NL) as [->|]; [easy|reflexivity].
Qed.
Lemma D_dots n0 s s' : D n0 dots s s' <-> exists a, a <> [] /\ ~ In NL a /\ s = a ++ s'.
Proof.
  unfold dots. cbn [D]. split.
  - intros (t & (c & -> & Hc) & (a & -> & Ha)). exists (c :: a). repeat split; [easy|].
    apply forallb_dot. cbn [forallb]. now rewrite Hc.
  - intros ([|c a] & Hn & Ha & ->); [easy|]. apply forallb_dot in Ha. cbn [forallb] in Ha.
    apply andb_true_iff in Ha as [Hc Ha]. exists (a ++ s'). split; [|eauto]. exists c. auto.
Qed.
Lemma D_chr n0 c s s' : D n0 (chr c) s s' <-> s = c :: s'.
Proof.
  cbn [D chr]. split.
  - intros (x & -> & H). rewrite mem_chr in H. apply N.eqb_eq in H. now subst.
  - intros ->. exists c. split; [reflexivity|]. rewrite mem_chr. apply N.eqb_refl.
Qed.
Lemma D_atom n0 k s s' : D n0 (atom k) s s' <-> exists a, TokMatch k a /\ s = a ++ s'.
Proof.
  destruct k; cbn [atom].
  - rewrite D_chr. split.
    + intros ->. exists [c]. split; [constructor|reflexivity].
    + intros (a & H & ->). inversion H; subst. reflexivity.
  - cbn [D]. split.
    + intros (a & -> & Ha). exists a. split; [|reflexivity]. constructor. now apply forallb_noslash.
    + intros (a & H & ->). inversion H; subst. exists a. split; [reflexivity|]. now apply forallb_noslash.
  - cbn [D]. split.
    + intros (c & -> & Hc). exists [c]. split; [|reflexivity]. constructor. rewrite mem_noslash in Hc.
      intros ->. discriminate.
    + intros (a & H & ->). inversion H; subst. exists c. split; [reflexivity|]. rewrite mem_noslash.
      destruct (N.eqb_spec c SLASH); [easy|reflexivity].
  - cbn [D]. split.
    + intros (c & -> & Hc). exists [c]. split; [|reflexivity]. destruct neg.
      * constructor. rewrite mem_neg in Hc. apply negb_true_iff in Hc. rewrite <- mem_ranges. congruence.
      * constructor. rewrite mem_pos in Hc. now apply mem_ranges.
    + intros (a & H & ->). inversion H; subst; exists c; (split; [reflexivity|]).
      * rewrite mem_pos. now apply mem_ranges.
      * rewrite mem_neg. apply negb_true_iff.
        match goal with H : ~ _ |- _ => rewrite <- mem_ranges in H; now apply not_true_iff_false in H end.
  - cbn [D]. split.
    + intros [(t & -> & H)|(t & (u & (v & -> & H1) & H2) & H3)].
      * apply D_chr in H. exists ($"/"). split; [constructor|exact H].
      * apply D_chr in H1, H3. apply D_dots in H2 as (a & Hn & Ha & E). subst.
        exists (SLASH :: a ++ ($"/")). split; [now constructor|]. cbn [app]. now rewrite <- app_assoc.
    + intros (a & H & ->). inversion H; subst.
      * left. exists (SLASH :: s'). split; [reflexivity|now apply D_chr].
      * right. exists (SLASH :: s'). split; [|now apply D_chr].
        exists (a0 ++ SLASH :: s'). split.
        -- eexists. split; [reflexivity|]. apply D_chr. cbn [app]. now rewrite <- app_assoc.
        -- apply D_dots. eauto.
  - cbn [D]. split.
    + intros [(t & (u & -> & H1) & H2)| ->].
      * apply D_chr in H2. apply D_dots in H1 as (a & Hn & Ha & E). subst.
        exists (a ++ ($"/")). split; [now constructor|]. now rewrite <- app_assoc.
      * exists []. split; [constructor|reflexivity].
    + intros (a & H & ->). inversion H; subst.
      * now right.
      * left. exists (SLASH :: s'). split; [|now apply D_chr].
        eexists. split; [reflexivity|]. apply D_dots. exists a0. rewrite <- app_assoc. auto.
  - cbn [D]. split.
    + intros [(t & (u & -> & H1) & H2)| ->].
      * apply D_chr in H1. apply D_dots in H2 as (a & Hn & Ha & E). subst.
        exists (SLASH :: a). split; [now constructor|]. reflexivity.
      * exists []. split; [constructor|reflexivity].
    + intros (a & H & ->). inversion H; subst.
      * now right.
      * left. exists (a0 ++ s'). split; [|apply D_dots; eauto].
        eexists. split; [reflexivity|]. now apply D_chr.
Qed.
Lemma Dl_toks n0 l : forall s s', Dl n0 (map atom l) s s' <-> exists a, ToksMatch l a /\ s = a ++ s'.
Proof.
  induction l as [|k l IH]; intros s s'; cbn [map Dl].
  - split.
    + intros ->. exists []. split; [constructor|reflexivity].
    + intros (a & H & ->). inversion H; subst. reflexivity.
  - split.
    + intros (t & H1 & H2). apply D_atom in H1 as (a & Ha & ->). apply IH in H2 as (b & Hb & ->).
      exists (a ++ b). split; [now constructor|]. apply app_assoc.
    + intros (x & H & ->). inversion H; subst. exists (b ++ s'). split.
      * apply D_atom. exists a. split; [assumption|]. now rewrite app_assoc.
      * apply IH. eauto.
Qed.
(** Up to a newline at the end, the whole text. *)
Lemma glob_re_matches l s : re_matches (glob_re l) s = true <->
  exists a b, ToksMatch l a /\ s = a ++ b /\ at_end b = true.
Proof.
  rewrite re_matches_iff. unfold glob_re. cbn [D]. split.
  - intros (s' & t & H & -> & He). apply D_fold in H as (u & (v & -> & -> & _) & H).
    apply Dl_toks in H as (a & Ha & ->). eauto.
  - intros (a & b & Ha & -> & He). exists b, b. split; [|auto]. apply D_fold. exists (a ++ b). split.
    + cbn [D]. eexists. split; [reflexivity|]. auto.
    + apply Dl_toks. eauto.
Qed.
Lemma at_end_app a b : ~ In NL (a ++ b) -> at_end b = true -> b = [].
Proof.
  intros H Hb. destruct b as [|x [|y b]]; [reflexivity| |discriminate].
  cbn in Hb. apply N.eqb_eq in Hb. subst x. destruct H. apply in_or_app. right. now left.
Qed.
Lemma glob_re_exact l s : ~ In NL s -> re_matches (glob_re l) s = true <-> ToksMatch l s.
Proof.
  intros Hn. rewrite glob_re_matches. split.
  - intros (a & b & Ha & -> & He). apply (at_end_app a) in He; [|exact Hn]. subst b. now rewrite app_nil_r.
  - intros H. exists s, []. rewrite app_nil_r. auto.
Qed.
