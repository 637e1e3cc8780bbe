(** The plugins grep, shebang, py, pacman and the hash sums. *)
From Coq Require Import List NArith ZArith Bool Lia Permutation.
From Verif Require Import Py SortLib StrOrder PathSpec GlobSpec TypeSpec ArgumentsSpec ArgumentsModel TypeModel RegistryModel CountModel GitModel GitProofs TestModel TestProofs PathProofs SearchSpec PluginModel PluginSpec.
Import ListNotations.
Local Open Scope nat_scope.

(** * Lines *)
Definition shown (x : str * bool) : str := if snd x then fst x ++ [LF] else fst x.
Lemma translate_plain l s : one_line l -> translate (l ++ s) = l ++ translate s.
Proof.
  intros [H _]. induction l as [|c l IH]; [reflexivity|]. cbn [app translate].
  destruct (N.eqb_spec c CR) as [->|N]; [exfalso; apply H; now left|]. f_equal. apply IH. intros K. apply H. now right.
Qed.
Lemma translate_end t rest : ends_line t rest -> translate (t ++ rest) = LF :: translate rest.
Proof.
  intros [->|[->|[-> H]]]; [reflexivity|reflexivity|]. cbn [app translate]. destruct (N.eqb_spec CR CR); [|congruence].
  destruct rest as [|d r]; [reflexivity|]. destruct (N.eqb_spec d LF) as [->|N]; [exfalso; now apply (H r)|reflexivity].
Qed.
Lemma readlines_line l s : ~ In LF l -> readlines (l ++ LF :: s) = (l ++ [LF]) :: readlines s.
Proof.
  induction l as [|c l IH]; intros H; [reflexivity|]. cbn [app readlines].
  destruct (N.eqb_spec c LF) as [->|N]; [exfalso; apply H; now left|]. rewrite IH by (intros K; apply H; now right). reflexivity.
Qed.
Lemma readlines_last l : ~ In LF l -> l <> [] -> readlines l = [l].
Proof.
  induction l as [|c l IH]; intros H N; [congruence|]. cbn [readlines].
  destruct (N.eqb_spec c LF) as [->|_]; [exfalso; apply H; now left|].
  destruct l as [|d l]; [reflexivity|]. rewrite IH; [reflexivity|intros K; apply H; now right|discriminate].
Qed.
Lemma text_lines s ls : TextLines s ls -> readlines (translate s) = map shown ls.
Proof.
  induction 1 as [|l H N|l t rest ls H E _ IH]; [reflexivity| |].
  - rewrite <- (app_nil_r l) at 1. rewrite (translate_plain l [] H). cbn [translate]. rewrite app_nil_r. exact (readlines_last l (proj2 H) N).
  - rewrite (translate_plain l _ H), (translate_end t rest E), (readlines_line l _ (proj2 H)), IH. reflexivity.
Qed.
Lemma text_total s : exists ls, TextLines s ls.
Proof.
  enough (G : forall n s, length s <= n -> exists ls, TextLines s ls) by exact (G _ s (le_n _)).
  clear s. induction n as [|n IH]; intros s H; [destruct s; [exists []; constructor|cbn in H; lia]|].
  assert (D : (one_line s) \/ exists l t rest, s = l ++ t ++ rest /\ one_line l /\ ends_line t rest /\ length rest < length s).
  { clear. induction s as [|c s IH]; [left; split; intros []|].
    destruct (N.eqb_spec c LF) as [->|N1].
    { right. exists [], [LF], s. split; [reflexivity|]. split; [split; intros []|]. split; [now left|]. cbn. lia. }
    destruct (N.eqb_spec c CR) as [->|N2].
    { right. destruct s as [|d r].
      - exists [], [CR], []. split; [reflexivity|]. split; [split; intros []|]. split; [|cbn; lia]. right. right. split; [reflexivity|]. intros r K. discriminate K.
      - destruct (N.eqb_spec d LF) as [->|N3].
        + exists [], [CR; LF], r. split; [reflexivity|]. split; [split; intros []|]. split; [|cbn; lia]. right. now left.
        + exists [], [CR], (d :: r). split; [reflexivity|]. split; [split; intros []|]. split; [|cbn; lia]. right. right. split; [reflexivity|].
          intros r' K. injection K as K _. contradiction. }
    destruct IH as [[H1 H2]|(l & t & rest & -> & [H1 H2] & E & L)].
    - left. split; intros [K|K]; auto.
    - right. exists (c :: l), t, rest. split; [reflexivity|]. split; [split; intros [K|K]; auto|]. split; [exact E|]. cbn. lia. }
  destruct D as [D|(l & t & rest & E & D1 & D2 & L)].
  - destruct s as [|c s]; [exists []; constructor|]. exists [(c :: s, false)]. constructor; [exact D|discriminate].
  - destruct (IH rest) as (ls & Hl); [lia|]. exists ((l, true) :: ls). rewrite E. now constructor.
Qed.
(** Only the last line can be without an end. *)
Lemma text_ended s ls : TextLines s ls -> forall l a b, ls = a ++ (l, false) :: b -> b = [].
Proof.
  induction 1 as [|l H N|l t rest ls H E _ IH]; intros m a b Q.
  - destruct a; discriminate Q.
  - destruct a as [|x [|y a]]; [now injection Q|discriminate Q|discriminate Q].
  - destruct a as [|x a]; [discriminate Q|]. injection Q as _ Q. exact (IH m a b Q).
Qed.
Lemma text_one_line s ls : TextLines s ls -> forall l b, In (l, b) ls -> one_line l.
Proof. induction 1 as [|l H N|l t rest ls H E _ IH]; intros m b I; [destruct I|destruct I as [[= <- <-]|[]]; exact H|destruct I as [[= <- <-]|I]; [exact H|exact (IH m b I)]]. Qed.
Lemma text_unique s ls ls' : TextLines s ls -> TextLines s ls' -> ls = ls'.
Proof.
  intros H H'. assert (E := text_lines s ls H). rewrite (text_lines s ls' H') in E.
  assert (O := text_one_line s ls H). assert (O' := text_one_line s ls' H'). clear H H'.
  revert ls' E O'. induction ls as [|[l b] ls IH]; intros [|[l' b'] ls'] E O'; try discriminate E; [reflexivity|].
  cbn [map] in E. injection E as E1 E2. f_equal; [|apply IH; [intros m c I; apply (O m c); now right|exact E2|intros m c I; apply (O' m c); now right]].
  destruct (O l b (or_introl eq_refl)) as [_ N]. destruct (O' l' b' (or_introl eq_refl)) as [_ N'].
  unfold shown in E1. cbn [fst snd] in E1. destruct b, b'.
  - apply app_inj_tail in E1 as [-> _]. reflexivity.
  - exfalso. subst l'. apply N'. apply in_app_iff. right. now left.
  - exfalso. subst l. apply N. apply in_app_iff. right. now left.
  - now subst l'.
Qed.
Lemma grep_text s : exists ls, TextLines s ls /\
  get_value (grep true (Decoded s)) ($"text") = Ok (VBool true) /\
  get_value (grep true (Decoded s)) ($"linecount") = Ok (VInt (Z.of_nat (length ls))) /\
  get_value (grep true (Decoded s)) ($"lines") = Ok (VList (map shown ls)).
Proof.
  destruct (text_total s) as (ls & H). exists ls. split; [exact H|]. assert (E := text_lines s ls H).
  assert (G : get_data (grep true (Decoded s)) = Ok [($"text", VBool true); ($"linecount", VInt (Z.of_nat (length ls))); ($"lines", VList (map shown ls))]).
  { unfold get_data, get_data_from_plugin, grep, p_handles, p_cached, p_process. rewrite E, map_length. reflexivity. }
  unfold get_value. rewrite G. split; [reflexivity|]. split; reflexivity.
Qed.

Section Lines.
  Variable R : Type.
  Variable rcompile : str -> res R.
  Variable rsearch : R -> str -> bool.
  Variable parse_time : str -> res Z.
  Variable debug : bool.
  Variable case : case_mode.
  Notation Sat := (Sat R rcompile rsearch parse_time debug case).
  Notation Folded := (Folded case).
  Lemma folded_app v x y z : Folded v (x ++ y) z -> exists x' y', Folded v x x' /\ Folded v y y' /\ z = x' ++ y'.
  Proof.
    intros F. inversion F as [Hf|Hf]; subst.
    - exists (lower x), (lower y). split; [now constructor|]. split; [now constructor|]. apply lower_app.
    - exists x, y. split; [now constructor|]. split; [now constructor|]. reflexivity.
  Qed.
  Lemma folded_both v x y x' y' : Folded v x x' -> Folded v y y' -> Folded v (x ++ y) (x' ++ y').
  Proof.
    intros F G. inversion F as [Hf|Hf]; inversion G as [Hg|Hg]; subst; try contradiction.
    - rewrite <- lower_app. now constructor.
    - now constructor.
  Qed.
  Lemma folded_fun v x y z : Folded v x y -> Folded v x z -> y = z.
  Proof. intros F G. inversion F; inversion G; subst; congruence. Qed.
  Lemma folded_exists v w x : Folded v w x -> forall y, exists y', Folded v y y'.
  Proof. intros F y. inversion F; eexists; [now apply folded_yes|now apply folded_no]. Qed.
  Lemma lower_c_lf c : lower_c c = LF -> c = LF.
  Proof.
    unfold lower_c, is_upper_AZ, between. intros H.
    destruct (_ || _) eqn:E; [|exact H]. apply orb_true_iff in E as [E|E].
    - apply andb_true_iff in E as [E _]. apply N.leb_le in E. lia.
    - apply andb_true_iff in E as [E _]. apply andb_true_iff in E as [E _]. apply N.leb_le in E. lia.
  Qed.
  Lemma folded_lf v x y : Folded v x y -> (In LF y <-> In LF x).
  Proof.
    intros F. inversion F; subst; [|tauto]. unfold lower. rewrite in_map_iff. split.
    - intros (c & E & I). apply lower_c_lf in E. now subst c.
    - intros I. exists LF. split; [reflexivity|exact I].
  Qed.
  Lemma infix_lf (v x : str) : ~ In LF v -> (exists a b, x ++ [LF] = a ++ v ++ b) <-> (exists a b, x = a ++ v ++ b).
  Proof.
    intros N. split.
    - intros (a & b & E). destruct b as [|c b] using rev_ind.
      + rewrite app_nil_r in E. destruct v as [|d v] using rev_ind.
        * exists x, []. now rewrite !app_nil_r.
        * rewrite app_assoc in E. apply app_inj_tail in E as [_ <-]. exfalso. apply N. apply in_app_iff. right. now left.
      + rewrite !app_assoc in E. apply app_inj_tail in E as [-> _]. exists a, b. now rewrite app_assoc.
    - intros (a & b & ->). exists a, (b ++ [LF]). now rewrite <- !app_assoc.
  Qed.
  Lemma sat_text o v x : In o [$"="; $":"] -> (Sat TString o v (VStr x) <-> exists x' v', Folded v x x' /\ Folded v v v' /\ StringTest x' v' o).
  Proof.
    intros Ho. split.
    - intros S. inversion S as [t o' v0 n k I _ _| |t o' v0 x0 x' v' I F G T| | | | |]; subst.
      + exists x', v'. auto.
      + destruct Ho as [K|[K|[]]]; discriminate K.
      + destruct Ho as [K|[K|[]]]; discriminate K.
    - intros (x' & v' & F & G & T). apply (sat_string R rcompile rsearch parse_time debug case TString o v x x' v'); auto. now left.
  Qed.
  (** A shown line contains v iff the line does. *)
  Lemma contains_shown v l b : ~ In LF v -> (Sat TString ($":") v (VStr (shown (l, b))) <-> Sat TString ($":") v (VStr l)).
  Proof.
    intros N. destruct b; [|reflexivity]. unfold shown. cbn [fst snd]. rewrite !sat_text by (right; now left). split.
    - intros (x' & v' & F & G & T). destruct (folded_app v l [LF] x' F) as (y & z & Fy & Fz & ->).
      exists y, v'. split; [exact Fy|]. split; [exact G|]. right. split; [reflexivity|].
      assert (z = [LF]) by (inversion Fz; subst; reflexivity). subst z.
      destruct T as [[K _]|[_ T]]; [discriminate K|]. apply (infix_lf v' y); [|exact T]. intros K. apply N. now apply (folded_lf v v v' G).
    - intros (x' & v' & F & G & T). exists (x' ++ [LF]), v'. split; [|split; [exact G|]].
      + apply folded_both; [exact F|]. inversion F; [now apply (folded_yes _ _ [LF])|now apply (folded_no _ _ [LF])].
      + right. split; [reflexivity|]. destruct T as [[K _]|[_ T]]; [discriminate K|]. apply (infix_lf v' x'); [|exact T].
        intros K. apply N. now apply (folded_lf v v v' G).
  Qed.
  (** Nothing equals an ended line. *)
  Lemma equal_shown v l b : ~ In LF v -> (Sat TString ($"=") v (VStr (shown (l, b))) <-> b = false /\ Sat TString ($"=") v (VStr l)).
  Proof.
    intros N. destruct b; [|unfold shown; cbn [fst snd]; tauto]. unfold shown. cbn [fst snd]. rewrite sat_text by (now left).
    split; [|intros [K _]; discriminate K].
    intros (x' & v' & F & G & T). exfalso. destruct T as [[_ T]|[K _]]; [|discriminate K]. subst v'. apply N. apply (folded_lf v v x' G).
    apply (folded_lf v _ x' F). apply in_app_iff. right. now left.
  Qed.
  Lemma sat_lines o v l : Sat TListOfStrings o v (VList l) <-> exists x, In x l /\ Sat TString o v (VStr x).
  Proof.
    split.
    - intros S. inversion S as [t o' v0 n k I _ _| |t o' v0 x0 x' v' I F G T|t v0 x0 x' v' r I F G C T| |o' v0 x l' I T| |]; subst. eauto.
    - intros (x & I & T). now apply (sat_list R rcompile rsearch parse_time debug case o v x l).
  Qed.
  Lemma lines_contain s ls v : TextLines s ls -> ~ In LF v ->
    (Sat TListOfStrings ($":") v (VList (map shown ls)) <-> exists l b, In (l, b) ls /\ Sat TString ($":") v (VStr l)).
  Proof.
    intros H N. rewrite sat_lines. split.
    - intros (x & I & S). apply in_map_iff in I as ([l b] & <- & I). exists l, b. split; [exact I|]. now apply (contains_shown v l b N).
    - intros (l & b & I & S). exists (shown (l, b)). split; [now apply in_map|]. now apply (contains_shown v l b N).
  Qed.
  Lemma lines_equal s ls v : TextLines s ls -> ~ In LF v ->
    (Sat TListOfStrings ($"=") v (VList (map shown ls)) <-> exists l, In (l, false) ls /\ Sat TString ($"=") v (VStr l)).
  Proof.
    intros H N. rewrite sat_lines. split.
    - intros (x & I & S). apply in_map_iff in I as ([l b] & <- & I). apply (equal_shown v l b N) in S as [-> S]. eauto.
    - intros (l & I & S). exists (shown (l, false)). split; [now apply in_map|]. apply (equal_shown v l false N). auto.
  Qed.
End Lines.

(** * Shebang *)
Lemma rstrip_app p v b : forallb p b = true -> (forall w c, v = w ++ [c] -> p c = false) -> rstrip_p p (v ++ b) = v.
Proof.
  intros B V. induction b as [|c b IH] using rev_ind.
  - rewrite app_nil_r. apply rstrip_p_id. destruct v as [|c v _] using rev_ind; [exact I|]. rewrite rev_app_distr. cbn. now apply (V v).
  - rewrite forallb_app in B. apply andb_true_iff in B as [B C]. cbn in C. rewrite andb_true_r in C.
    unfold rstrip_p in *. rewrite app_assoc, rev_app_distr. cbn [rev app lstrip_p]. rewrite C. exact (IH B).
Qed.
Lemma first_line_readlines s l : FirstLine s l -> l <> [] -> exists t ls, readlines s = (l ++ t) :: ls /\ (t = [] \/ t = [LF]).
Proof.
  intros [N [->|(rest & ->)]] H.
  - exists [], []. rewrite app_nil_r. split; [now apply readlines_last|now left].
  - exists [LF], (readlines rest). split; [now apply readlines_line|now right].
Qed.
Lemma ascii_some s : (forall c, In c s -> (c < 128)%N) -> ascii s = Some s.
Proof. intros H. unfold ascii. replace (forallb _ s) with true; [reflexivity|]. symmetry. apply forallb_forall. intros c I. apply N.ltb_lt. now apply H. Qed.
Lemma extract_first s v : Shebang s v -> extract_shebang (Some s) = Some v.
Proof.
  intros (l & b & F & E & B & V & A). unfold extract_shebang.
  destruct (first_line_readlines s l F) as (t & ls & -> & T); [rewrite E; discriminate|]. rewrite E.
  change (($"#!" ++ v ++ b) ++ t) with (35%N :: 33%N :: ((v ++ b) ++ t)). cbn [first_shebang].
  change (starts_with ($"#!") (35%N :: 33%N :: ((v ++ b) ++ t))) with true. cbn [skipn].
  rewrite ascii_some.
  - cbn [option_map]. f_equal. rewrite <- app_assoc. apply rstrip_app; [|exact V]. rewrite forallb_app, B. destruct T as [-> | ->]; reflexivity.
  - intros c I. apply in_app_iff in I as [I|I].
    + apply A. rewrite E. apply in_app_iff. now right.
    + destruct T as [-> | ->]; [destruct I|]. destruct I as [<-|[]]. reflexivity.
Qed.
Lemma shebang_value s v : Shebang s v -> get_value (shebang true (Some s)) ($"shebang") = Ok (VStr v).
Proof.
  intros H. unfold get_value, get_data, get_data_from_plugin, shebang, p_handles, p_cached, p_process.
  rewrite (extract_first s v H). reflexivity.
Qed.
Lemma first_none lines : (forall l, In l lines -> starts_with ($"#!") l = false) -> first_shebang lines = None.
Proof.
  induction lines as [|l lines IH]; intros H; [reflexivity|]. cbn [first_shebang]. rewrite (H l (or_introl eq_refl)). apply IH. intros x I. apply H. now right.
Qed.
(** A text with no line that begins with #! *)
Inductive no_lines : str -> Prop :=
| nl_last l : ~ In LF l -> ~ (exists r, l = $"#!" ++ r) -> no_lines l
| nl_line l s : ~ In LF l -> ~ (exists r, l = $"#!" ++ r) -> no_lines s -> no_lines (l ++ LF :: s).
Lemma starts_not l t : t = [] \/ t = [LF] -> ~ (exists r, l = $"#!" ++ r) -> starts_with ($"#!") (l ++ t) = false.
Proof.
  intros T N. destruct l as [|c [|d l]].
  - destruct T as [-> | ->]; reflexivity.
  - destruct T as [-> | ->]; cbn; rewrite ?andb_false_r; reflexivity.
  - destruct (starts_with ($"#!") ((c :: d :: l) ++ t)) eqn:E; [|reflexivity]. exfalso. apply N. exists l.
    change ((N.eqb 35 c && (N.eqb 33 d && true))%bool = true) in E. apply andb_true_iff in E as [E1 E2]. apply andb_true_iff in E2 as [E2 _]. apply N.eqb_eq in E1, E2. now subst c d.
Qed.
Lemma no_value s : no_lines s -> get_value (shebang true (Some s)) ($"shebang") = Err KeyErr.
Proof.
  intros H. assert (E : extract_shebang (Some s) = None).
  { unfold extract_shebang. induction H as [l H N|l s H N _ IH].
    - destruct l as [|c l]; [reflexivity|]. rewrite readlines_last by (exact H || discriminate). cbn [first_shebang].
      assert (X := starts_not (c :: l) [] (or_introl eq_refl) N). rewrite app_nil_r in X. now rewrite X.
    - rewrite readlines_line by exact H. cbn [first_shebang]. rewrite (starts_not l [LF] (or_intror eq_refl) N). exact IH. }
  unfold get_value, get_data, get_data_from_plugin, shebang, p_handles, p_cached, p_process. rewrite E. reflexivity.
Qed.

(** * Imports *)
Lemma after_last_join dirs d : Forall name_ok (dirs ++ [d]) -> after_last (join_with [SLASH] (dirs ++ [d])) = d.
Proof.
  intros F. apply Forall_app in F as [F G]. inversion G as [|? ? [N S] _]; subst.
  assert (X : forall p, ~ In SLASH d -> after_last (p ++ SLASH :: d) = d).
  { induction p as [|c p IH]; intros H.
    - cbn [app after_last]. replace (has_char SLASH d) with false; [reflexivity|]. symmetry. apply not_true_iff_false. intros K. apply H. apply has_char_iff. exact K.
    - cbn [app after_last]. replace (has_char SLASH (p ++ SLASH :: d)) with true; [now apply IH|]. symmetry. apply has_char_iff. apply in_app_iff. right. now left. }
  destruct dirs as [|a dirs].
  - cbn [app join_with]. destruct d as [|c d]; [reflexivity|]. clear -S. cbn [after_last]. replace (has_char SLASH d) with false.
    + destruct (N.eqb_spec c SLASH) as [->|_]; [exfalso; apply S; now left|reflexivity].
    + symmetry. apply not_true_iff_false. intros K. apply S. right. apply has_char_iff. exact K.
  - rewrite (join_with_snoc (a :: dirs) d) by discriminate. now apply X.
Qed.
Definition simple_node (n : node) : Prop :=
  match n with Import [_] | ImportFrom (Some _) O | ImportFrom (Some _) 1 => True | _ => False end.
Lemma imports_listed dirs d nodes : Forall name_ok (dirs ++ [d]) -> Forall simple_node nodes ->
  lists_imports (dirs ++ [d]) nodes (flat_map (imports_of (join_with [SLASH] (dirs ++ [d]))) nodes).
Proof.
  intros F S. assert (A := after_last_join dirs d F).
  assert (P : package (dirs ++ [d]) 1 = dirs ++ [d]).
  { unfold package. replace (length (dirs ++ [d]) - (1 - 1)) with (length (dirs ++ [d])) by lia. apply firstn_all. }
  assert (B : forall n, simple_node n -> forall x, In x (imports_of (join_with [SLASH] (dirs ++ [d])) n) -> imported (dirs ++ [d]) n x).
  { intros n Hn x I. destruct n as [[|a [|]]|[m|] [|[|k]]]; try contradiction; cbn [imports_of] in I.
    - destruct I as [<-|[]]. constructor. now left.
    - cbn [Nat.ltb Nat.leb] in I. destruct I as [<-|[]]. constructor.
    - change (Nat.ltb 0 1) with true in I. cbn [relative_parts] in I. unfold os_split in I. rewrite A in I. destruct I as [<-|[]].
      exact (imp_relative (dirs ++ [d]) m 0 dirs [d] P ltac:(discriminate)). }
  rewrite Forall_forall in S. split; [|split].
  - intros x I. apply in_flat_map in I as (n & In_ & I). exists n. split; [exact In_|]. apply B; [now apply S|exact I].
  - intros names n I J. assert (K := S _ I). destruct names as [|a [|]]; try contradiction. destruct J as [<-|[]].
    apply in_flat_map. exists (Import [a]). split; [exact I|now left].
  - intros m k I. assert (K := S _ I).
    assert (E : exists x, In x (imports_of (join_with [SLASH] (dirs ++ [d])) (ImportFrom m k))).
    { destruct m as [m|], k as [|[|k]]; try contradiction; eexists; now left. }
    destruct E as (x & E). exists x. split; [apply in_flat_map; eauto|now apply B].
Qed.
Lemma imports_value ext contents dirs d nodes : lower ext = $"py" -> Forall name_ok (dirs ++ [d]) -> Forall simple_node nodes ->
  exists l, get_value (py ext (join_with [SLASH] (dirs ++ [d])) contents (Parsed nodes)) ($"imports") = Ok (VList l) /\ lists_imports (dirs ++ [d]) nodes l.
Proof.
  intros E F S. destruct (imports_listed dirs d nodes F S) as (H1 & H2 & H3).
  exists (isort str_leb (flat_map (imports_of (join_with [SLASH] (dirs ++ [d]))) nodes)). split.
  - unfold get_value, get_data, get_data_from_plugin, py, p_handles, p_cached, p_process. rewrite E.
    change (str_eqb ($"py") ($"py")) with true. cbn [orb]. reflexivity.
  - split; [|split].
    + intros x I. apply isort_in in I. now apply H1.
    + intros names n I J. apply isort_in. eauto.
    + intros m k I. destruct (H3 m k I) as (x & J & K). exists x. split; [now apply isort_in|exact K].
Qed.

(** * Packages *)
Lemma take_word_app w r : (forall c, In c w -> is_space c = false) -> match r with [] => True | c :: _ => is_space c = true end -> take_word (w ++ r) = (w, r).
Proof.
  intros W R. induction w as [|c w IH].
  - destruct r as [|c r]; [reflexivity|]. cbn. now rewrite R.
  - cbn [app take_word]. rewrite (W c (or_introl eq_refl)), IH; [reflexivity|]. intros x I. apply W. now right.
Qed.
Lemma lstrip_first w r : w <> [] -> (forall c, In c w -> is_space c = false) -> lstrip_p is_space (w ++ r) = w ++ r.
Proof. intros N W. destruct w as [|c w]; [congruence|]. cbn [app]. apply lstrip_p_id. apply W. now left. Qed.
Lemma split_owned o : good_owned o -> split_once (strip (owned_line o)) = Ok (o_package o, o_path o ++ (if o_directory o then $"/" else [])).
Proof.
  destruct o as [k p b]. intros (K & S & q & c & E & N & C). cbn [o_package o_path o_directory] in *. unfold owned_line. cbn [o_package o_path o_directory].
  set (t := if b then $"/" else []).
  assert (L : exists m e, p ++ t = SLASH :: m ++ [e] /\ is_space e = false).
  { rewrite E. destruct b; unfold t; [exists (q ++ [c]), SLASH; split; reflexivity|exists q, c; rewrite app_nil_r; auto]. }
  destruct L as (m & e & L & Le).
  assert (T : strip (k ++ $" " ++ p ++ t ++ [LF]) = k ++ $" " ++ p ++ t).
  { replace (k ++ $" " ++ p ++ t ++ [LF]) with ((k ++ $" " ++ p ++ t) ++ [LF]) by now rewrite <- !app_assoc.
    unfold strip, strip_p. rewrite <- app_assoc, lstrip_first by assumption. rewrite app_assoc. apply rstrip_app; [reflexivity|].
    intros w x Q. rewrite L in Q. replace (k ++ $" " ++ SLASH :: m ++ [e]) with ((k ++ $" " ++ SLASH :: m) ++ [e]) in Q by now rewrite <- !app_assoc.
    apply app_inj_tail in Q as [_ <-]. exact Le. }
  transitivity (split_once (k ++ $" " ++ p ++ t)); [exact (f_equal split_once T)|]. unfold split_once. rewrite lstrip_first by assumption. rewrite take_word_app by (exact S || reflexivity).
  rewrite L. change (lstrip_p is_space ($" " ++ SLASH :: m ++ [e])) with (SLASH :: m ++ [e]). change (Ok (k, SLASH :: m ++ [e]) = Ok (k, p ++ t)). now rewrite L.
Qed.
Lemma rstrip_slash o : good_owned o -> rstrip_p (N.eqb SLASH) (o_path o ++ (if o_directory o then $"/" else [])) = o_path o.
Proof.
  intros (_ & _ & q & c & E & N & _). apply rstrip_app; [now destruct (o_directory o)|].
  intros w x Q. rewrite E in Q. change (SLASH :: q ++ [c]) with ((SLASH :: q) ++ [c]) in Q. apply app_inj_tail in Q as [_ <-].
  apply N.eqb_neq. intros K. now apply N.
Qed.
Lemma package_lines os : Forall good_owned os -> package_files (map owned_line os) = Ok (map (fun o => (o_package o, o_path o)) os).
Proof.
  induction 1 as [|o os H _ IH]; [reflexivity|]. cbn [map package_files]. rewrite (split_owned o H). cbn [bindr].
  rewrite IH. cbn [bindr fst snd]. now rewrite (rstrip_slash o H).
Qed.
Definition listing (os : list owned) : str := concat (map owned_line os).
Lemma listing_lines os : Forall good_owned os -> Forall (fun o => one_line (o_path o)) os -> readlines (translate (listing os)) = map owned_line os.
Proof.
  intros G F.
  assert (T : TextLines (listing os) (map (fun o => (o_package o ++ $" " ++ o_path o ++ (if o_directory o then $"/" else []), true)) os)).
  { induction os as [|o os IH]; [constructor|]. inversion G as [|? ? G1 G2]; inversion F as [|? ? F1 F2]; subst. unfold listing. cbn [map concat].
    assert (X : owned_line o ++ concat (map owned_line os)
      = (o_package o ++ $" " ++ o_path o ++ (if o_directory o then $"/" else [])) ++ [LF] ++ listing os)
      by (unfold owned_line, listing; now rewrite <- !app_assoc).
    rewrite X. clear X.
    constructor; [|now left|exact (IH G2 F2)].
    destruct F1 as [F1 F3], G1 as (_ & S & _). split; intros I.
    - apply in_app_iff in I as [I|I]; [apply S in I; discriminate I|]. apply in_app_iff in I as [[I|[]]|I]; [discriminate I|].
      apply in_app_iff in I as [I|I]; [contradiction|]. destruct (o_directory o); [destruct I as [I|[]]; discriminate I|destruct I].
    - apply in_app_iff in I as [I|I]; [apply S in I; discriminate I|]. apply in_app_iff in I as [[I|[]]|I]; [discriminate I|].
      apply in_app_iff in I as [I|I]; [contradiction|]. destruct (o_directory o); [destruct I as [I|[]]; discriminate I|destruct I]. }
  rewrite (text_lines _ _ T), map_map. apply map_ext. intros o. unfold shown, owned_line. cbn [fst snd]. now rewrite <- !app_assoc.
Qed.
Section Dict.
  Lemma get_set k k' (v : list str) d : dict_get str_eqb k (dict_set str_eqb k' v d) = if str_eqb k k' then Some v else dict_get str_eqb k d.
  Proof.
    induction d as [|[q w] d IH]; cbn [dict_set dict_get]; [reflexivity|].
    destruct (str_eqb k' q) eqn:E; cbn [dict_get].
    - apply str_eqb_eq in E. subst q. now destruct (str_eqb k k').
    - rewrite IH. destruct (str_eqb k q) eqn:Q; [|reflexivity]. apply str_eqb_eq in Q. subst q. destruct (str_eqb k k') eqn:Z; [|reflexivity].
      apply str_eqb_eq in Z. subst k'. rewrite str_eqb_refl in E. discriminate E.
  Qed.
  Lemma in_get k (v : list str) d : NoDup (map fst d) -> In (k, v) d -> dict_get str_eqb k d = Some v.
  Proof.
    induction d as [|[q w] d IH]; intros N I; [destruct I|]. cbn [map] in N. inversion N as [|? ? N1 N2]; subst. cbn [dict_get].
    destruct I as [I|I]; [injection I as -> ->; now rewrite str_eqb_refl|].
    destruct (str_eqb k q) eqn:E; [|now apply IH]. apply str_eqb_eq in E. subst q. exfalso. apply N1. now apply (in_map fst) in I.
  Qed.
  Lemma get_in k (v : list str) d : dict_get str_eqb k d = Some v -> In (k, v) d.
  Proof.
    induction d as [|[q w] d IH]; intros H; [discriminate H|]. cbn [dict_get] in H. destruct (str_eqb k q) eqn:E; [|right; now apply IH].
    apply str_eqb_eq in E. injection H as ->. subst q. now left.
  Qed.
  Lemma keys_set k (v : list str) d : NoDup (map fst d) -> NoDup (map fst (dict_set str_eqb k v d)) /\ (forall x, In x (map fst (dict_set str_eqb k v d)) -> x = k \/ In x (map fst d)).
  Proof.
    induction d as [|[q w] d IH]; intros N; cbn [dict_set].
    - split; [cbn; repeat constructor; intros []|]. intros x [<-|[]]. now left.
    - inversion N as [|? ? N1 N2]; subst. destruct (str_eqb k q) eqn:E.
      + split; [exact N|]. intros x I. now right.
      + destruct (IH N2) as [H1 H2]. split.
        * cbn. constructor; [|exact H1]. intros K. apply H2 in K as [->|K]; [rewrite str_eqb_refl in E; discriminate E|contradiction].
        * intros x [<-|I]; [right; now left|]. destruct (H2 x I) as [->|K]; [now left|right; now right].
  Qed.
End Dict.
Lemma packages_keys l d : NoDup (map fst d) -> NoDup (map fst (packages l d)).
Proof. revert d. induction l as [|[k p] l IH]; intros d N; [exact N|]. cbn [packages]. apply IH. apply keys_set. exact N. Qed.
Lemma packages_get l d k p : (exists s, dict_get str_eqb k (packages l d) = Some s /\ In p s) <->
  (In (k, p) l \/ exists s, dict_get str_eqb k d = Some s /\ In p s).
Proof.
  revert d. induction l as [|[k' p'] l IH]; intros d; cbn [packages].
  - split; [intros H; now right|intros [[]|H]; exact H].
  - rewrite IH, get_set. destruct (str_eqb k k') eqn:E.
    + apply str_eqb_eq in E. subst k'. split.
      * intros [H|(s & H & I)]; [left; now right|]. injection H as <-. destruct I as [->|I]; [left; now left|].
        destruct (dict_get str_eqb k d) as [s|]; [right; eauto|destruct I].
      * intros [[H|H]|(s & H & I)].
        -- injection H as ->. right. eexists. split; [reflexivity|now left].
        -- now left.
        -- right. rewrite H. eexists. split; [reflexivity|now right].
    + split; (intros [H|H]; [left|now right]).
      * now right.
      * destruct H as [H|H]; [|exact H]. injection H as -> ->. rewrite str_eqb_refl in E. discriminate E.
Qed.
Lemma make_snoc l k v n : dict_get str_eqb n (make_dict (l ++ [(k, v)])) = if str_eqb n k then Some v else dict_get str_eqb n (make_dict l).
Proof.
  unfold make_dict. rewrite fold_left_app. cbn [fold_left fst snd]. set (d := fold_left _ l []). clearbody d.
  induction d as [|[q w] d IH]; cbn [dict_set dict_get]; [reflexivity|].
  destruct (str_eqb k q) eqn:E; cbn [dict_get].
  - apply str_eqb_eq in E. subst q. now destruct (str_eqb n k).
  - rewrite IH. destruct (str_eqb n q) eqn:Q; [|reflexivity]. apply str_eqb_eq in Q. subst q. destruct (str_eqb n k) eqn:Z; [|reflexivity].
    apply str_eqb_eq in Z. subst k. rewrite str_eqb_refl in E. discriminate E.
Qed.
(** pkgname: the last of the packages *)
Lemma make_names l ps : (forall x, In x ps -> fst x = $"pkgname") ->
  (dict_get str_eqb ($"installed") (make_dict (($"installed", l) :: ps)) = Some l) /\
  (forall ps' v, ps = ps' ++ [($"pkgname", v)] -> dict_get str_eqb ($"pkgname") (make_dict (($"installed", l) :: ps)) = Some v) /\
  (ps = [] -> dict_get str_eqb ($"pkgname") (make_dict (($"installed", l) :: ps)) = None).
Proof.
  induction ps as [|[k v] ps IH] using rev_ind; intros H.
  - split; [reflexivity|]. split; [intros [|] v K; discriminate K|reflexivity].
  - destruct IH as (I1 & _); [intros x I; apply H; apply in_app_iff; now left|].
    assert (K : k = $"pkgname") by (apply (H (k, v)); apply in_app_iff; right; now left). subst k.
    rewrite app_comm_cons, !make_snoc. split; [exact I1|]. split.
    + intros ps' w Q. apply app_inj_tail in Q as [_ Q]. injection Q as ->. reflexivity.
    + intros Q. destruct ps; discriminate Q.
Qed.
Section Pacman.
  Variable os : list owned.
  Let files := map (fun o => (o_package o, o_path o)) os.
  Lemma snd_files p : str_in p (map snd files) = true <-> exists o, In o os /\ o_path o = p.
  Proof.
    rewrite str_in_iff. unfold files. rewrite map_map, in_map_iff. cbn [snd]. split; intros (o & A & B); exists o; auto.
  Qed.
  Lemma pacman_installed p b : get_value (pacman files p) ($"installed") = Ok (VBool b) <-> (b = true <-> exists o, In o os /\ o_path o = p).
  Proof.
    unfold get_value, get_data, get_data_from_plugin, pacman, p_handles, p_cached, p_process.
    rewrite <- snd_files. destruct (str_in p (map snd files)) eqn:E.
    - cbn [bindr]. destruct (make_names (VBool true) (flat_map (fun q => if str_in p (snd q) then [($"pkgname", VStr (fst q))] else []) (packages files []))) as (H & _).
      { intros x I. apply in_flat_map in I as (q & _ & I). destruct (str_in p (snd q)); [destruct I as [<-|[]]; reflexivity|destruct I]. }
      rewrite H. destruct b; split; intros K; try reflexivity; try discriminate K. destruct K as [_ K]. discriminate (K eq_refl).
    - cbn [bindr]. change (dict_get str_eqb ($"installed") (make_dict [($"installed", VBool false)])) with (Some (VBool false)).
      destruct b; split; intros K; try reflexivity; try discriminate K. destruct K as [K _]. discriminate (K eq_refl).
  Qed.
  Lemma pacman_name p o : In o os -> o_path o = p ->
    exists o', In o' os /\ o_path o' = p /\ get_value (pacman files p) ($"pkgname") = Ok (VStr (o_package o')).
  Proof.
    intros I E.
    assert (A : str_in p (map snd files) = true) by (apply snd_files; eauto).
    unfold get_value, get_data, get_data_from_plugin, pacman, p_handles, p_cached, p_process. rewrite A. cbn [bindr].
    set (ps := flat_map _ _).
    assert (P : forall x, In x ps <-> exists k s, x = ($"pkgname", VStr k) /\ In (k, s) (packages files []) /\ In p s).
    { intros x. unfold ps. rewrite in_flat_map. split.
      - intros ([k s] & B & C). cbn [fst snd] in C. destruct (str_in p s) eqn:D; [|destruct C]. destruct C as [<-|[]]. apply str_in_iff in D. eauto.
      - intros (k & s & -> & B & D). exists (k, s). split; [exact B|]. cbn [fst snd]. apply str_in_iff in D. rewrite D. now left. }
    destruct (make_names (VBool true) ps) as (_ & H & _); [intros x K; apply P in K as (k & s & -> & _); reflexivity|].
    assert (Nn : ps <> []).
    { intros Z. destruct (proj2 (packages_get files [] (o_package o) p)) as (s & D & Ds).
      - left. unfold files. rewrite <- E. now apply (in_map (fun o => (o_package o, o_path o))).
      - assert (X : In ($"pkgname", VStr (o_package o)) ps) by (apply P; exists (o_package o), s; split; [reflexivity|]; split; [now apply get_in|exact Ds]).
        rewrite Z in X. destruct X. }
    destruct (exists_last Nn) as (ps' & x & Q).
    assert (X : In x ps) by (rewrite Q; apply in_app_iff; right; now left).
    apply P in X as (k & s & -> & B & D). rewrite (H ps' (VStr k) Q).
    destruct (proj1 (packages_get files [] k p)) as [F|(z & F & _)]; [|apply in_map_iff in F as (o' & F & Fo)|discriminate F].
    { exists s. split; [|exact D]. apply in_get; [|exact B]. apply packages_keys. constructor. }
    injection F as F1 F2. exists o'. split; [exact Fo|]. split; [exact F2|]. now rewrite F1.
  Qed.
  Lemma pacman_no_name p : (forall o, In o os -> o_path o <> p) -> get_value (pacman files p) ($"pkgname") = Err KeyErr.
  Proof.
    intros N. assert (A : str_in p (map snd files) = false).
    { apply not_true_iff_false. intros K. apply snd_files in K as (o & I & E). exact (N o I E). }
    unfold get_value, get_data, get_data_from_plugin, pacman, p_handles, p_cached, p_process. rewrite A. reflexivity.
  Qed.
End Pacman.

(** * Hash sums *)
Lemma buffer_positive : 0 < buffer.
Proof. unfold buffer. lia. Qed.
Section HashSum.
  Variable S : Type.
  Variable start : S.
  Variable update : S -> str -> S.
  Lemma read_all fuel s contents : length contents < fuel ->
    exists chunks, read_loop S update fuel s contents = Some (fold_left update chunks s) /\ concat chunks = contents.
  Proof.
    assert (B := buffer_positive).
    revert s contents. induction fuel as [|fuel IH]; intros s contents L; [lia|]. cbn [read_loop].
    destruct (firstn buffer contents) as [|c buf] eqn:E.
    - exists []. split; [reflexivity|]. destruct contents as [|d contents]; [reflexivity|]. destruct buffer; [lia|discriminate E].
    - assert (Q := firstn_skipn buffer contents). rewrite E in Q.
      assert (Lq : length (skipn buffer contents) < fuel) by (rewrite <- Q, app_length in L; cbn [length] in L; lia).
      destruct (IH (update s (c :: buf)) _ Lq) as (chunks & -> & C). exists ((c :: buf) :: chunks). split; [reflexivity|].
      cbn [concat]. now rewrite C.
  Qed.
  Lemma hash_value hexdigest digest name contents : (forall chunks, hexdigest (fold_left update chunks start) = digest (concat chunks)) ->
    get_value (hash S start update (Some hexdigest) name true (Some contents)) name = Ok (VStr (digest contents)).
  Proof.
    intros H. destruct (read_all (Datatypes.S (length contents)) start contents (Nat.lt_succ_diag_r _)) as (chunks & E & C).
    unfold get_value, get_data, get_data_from_plugin, hash, p_handles, p_cached, p_process. rewrite E. cbn [bindr].
    unfold make_dict. cbn [fold_left fst snd dict_set dict_get]. rewrite str_eqb_refl, H, C. reflexivity.
  Qed.
End HashSum.

(** * For the theorems *)
Lemma lines_equal_last R rc rs pt dbg case s ls v : TextLines s ls -> ~ In LF v ->
  (Sat R rc rs pt dbg case TListOfStrings ($"=") v (VList (map shown ls)) <->
   exists l ls', ls = ls' ++ [(l, false)] /\ Sat R rc rs pt dbg case TString ($"=") v (VStr l)).
Proof.
  intros H N. rewrite (lines_equal R rc rs pt dbg case s ls v H N). split.
  - intros (l & I & S). apply in_split in I as (a & b & E). assert (b = []) by exact (text_ended s ls H l a b E). subst b. eauto.
  - intros (l & a & E & S). exists l. split; [|exact S]. rewrite E. apply in_app_iff. right. now left.
Qed.
Lemma installed_read os path : Forall good_owned os -> Forall (fun o => one_line (o_path o)) os ->
  exists b, (exists files, package_files (readlines (translate (listing os))) = Ok files /\ get_value (pacman files path) ($"installed") = Ok (VBool b)) /\
  (b = true <-> exists o, In o os /\ o_path o = path).
Proof.
  intros G F. destruct (str_in path (map o_path os)) eqn:E.
  - exists true. assert (X : exists o, In o os /\ o_path o = path) by (apply str_in_iff, in_map_iff in E as (o & A & B); eauto).
    split; [|tauto]. eexists. split; [rewrite listing_lines by assumption; now apply package_lines|]. apply pacman_installed. tauto.
  - exists false. assert (X : ~ exists o, In o os /\ o_path o = path).
    { intros (o & A & B). apply not_true_iff_false in E. apply E, str_in_iff, in_map_iff. eauto. }
    assert (Y : false = true <-> exists o, In o os /\ o_path o = path) by (split; [discriminate|contradiction]).
    split; [|exact Y]. eexists. split; [rewrite listing_lines by assumption; now apply package_lines|]. now apply pacman_installed.
Qed.
Lemma name_read os path : Forall good_owned os -> Forall (fun o => one_line (o_path o)) os ->
  ((exists o, In o os /\ o_path o = path /\
      exists files, package_files (readlines (translate (listing os))) = Ok files /\ get_value (pacman files path) ($"pkgname") = Ok (VStr (o_package o))) \/
   (~ In path (map o_path os) /\
      exists files, package_files (readlines (translate (listing os))) = Ok files /\ get_value (pacman files path) ($"pkgname") = Err KeyErr)).
Proof.
  intros G F. destruct (str_in path (map o_path os)) eqn:E.
  - left. apply str_in_iff, in_map_iff in E as (o & A & B). destruct (pacman_name os path o B A) as (o' & C & D & Q).
    exists o'. split; [exact C|]. split; [exact D|]. eexists. split; [rewrite listing_lines by assumption; now apply package_lines|exact Q].
  - right. assert (X : ~ In path (map o_path os)) by (intros K; apply not_true_iff_false in E; now apply E, str_in_iff).
    split; [exact X|]. eexists. split; [rewrite listing_lines by assumption; now apply package_lines|].
    apply pacman_no_name. intros o I K. apply X. rewrite <- K. now apply in_map.
Qed.
Lemma grep_data f r : exists d, get_data (grep f r) = Ok d.
Proof. destruct f; [|now exists []]. destruct r; eexists; reflexivity. Qed.
Lemma shebang_data f c : exists d, get_data (shebang f c) = Ok d.
Proof. destruct f; eexists; reflexivity. Qed.
Lemma pacman_data files path : exists d, get_data (pacman files path) = Ok d.
Proof. eexists. reflexivity. Qed.
Lemma hash_fails S start update name contents : get_data (hash S start update None name true (Some contents)) = Err PluginErr.
Proof. unfold get_data, get_data_from_plugin, hash, p_handles, p_cached, p_process. destruct (read_loop S update (Datatypes.S (length contents)) start contents); reflexivity. Qed.
Lemma py_fails ext dir c : lower ext = $"py" -> get_data (py ext dir c Uncaught) = Err PluginErr.
Proof. intros E. unfold get_data, get_data_from_plugin, py, p_handles, p_cached, p_process. rewrite E. reflexivity. Qed.

(** * Archives and types of files *)
Lemma split_on_first c s t rest : split_on c s = t :: rest -> ~ In c t.
Proof.
  revert t rest. induction s as [|x s IH]; intros t rest E; cbn [split_on] in E.
  - injection E as <- _. intros [].
  - destruct (N.eqb_spec x c) as [->|N]; [injection E as <- _; intros []|].
    destruct (split_on c s) as [|u r] eqn:Q; [injection E as <- _; intros [K|[]]; congruence|].
    injection E as <- <-. intros [K|K]; [congruence|]. exact (IH u r eq_refl K).
Qed.
Lemma mime_parts m encoding name : In SLASH m -> exists t p, ~ In SLASH t /\ m = t ++ $"/" ++ p /\
  get_value (mime true (Some (m, encoding, name))) ($"mime") = Ok (VStr m) /\
  get_value (mime true (Some (m, encoding, name))) ($"type") = Ok (VStr t) /\
  get_value (mime true (Some (m, encoding, name))) ($"subtype") = Ok (VStr p) /\
  get_value (mime true (Some (m, encoding, name))) ($"encoding") = Ok (VStr encoding) /\
  get_value (mime true (Some (m, encoding, name))) ($"name") = Ok (VStr name).
Proof.
  intros I. assert (J := join_split SLASH m). destruct (split_on SLASH m) as [|t [|p rest]] eqn:E.
  - cbn in J. subst m. destruct I.
  - cbn [join_with] in J. subst m. exfalso. exact (split_on_first SLASH t t [] E I).
  - assert (G : get_data (mime true (Some (m, encoding, name))) = Ok [($"mime", VStr m); ($"type", VStr t); ($"subtype", VStr (join_with ($"/") (p :: rest))); ($"encoding", VStr encoding); ($"name", VStr name)]).
    { unfold get_data, get_data_from_plugin, mime, p_handles, p_cached, p_process. rewrite E. reflexivity. }
    exists t, (join_with ($"/") (p :: rest)). split; [exact (split_on_first SLASH m t (p :: rest) E)|]. split; [symmetry; exact J|].
    unfold get_value. rewrite G. repeat split.
Qed.
Lemma tar_name_iff name : tar_name name <-> exists x base, In x tar_extensions /\ name = base ++ x.
Proof.
  unfold tar_name, tar_extensions. split.
  - intros [[b E]|[(b & c & E & I)|(b & c & E & I)]]; [exists ($".tar")|exists ($".tar." ++ c)|exists ($".t" ++ c)]; exists b; (split; [|exact E]).
    + now left.
    + cbn [In] in I. repeat (destruct I as [<-|I]; [apply str_in_iff; vm_compute; reflexivity|]). destruct I.
    + cbn [In] in I. repeat (destruct I as [<-|I]; [apply str_in_iff; vm_compute; reflexivity|]). destruct I.
  - intros (x & b & I & E). subst name. cbn [In] in I.
    assert (T : forall x, (exists c, x = $".tar." ++ c /\ In c [$"gz"; $"bz2"; $"lz"; $"lzma"; $"xz"]) \/ (exists c, x = $".t" ++ c /\ In c [$"az"; $"gz"; $"pz"; $"b2"; $"bz"; $"bz2"; $"z2"; $"lz"; $"xz"]) -> tar_name (b ++ x)).
    { intros y [(c & -> & J)|(c & -> & J)]; right; [left|right]; eauto. }
    destruct I as [<-|I]; [left; now exists b|]. apply T.
    assert (U : existsb (fun c => str_eqb x ($".tar." ++ c)) [$"gz"; $"bz2"; $"lz"; $"lzma"; $"xz"] || existsb (fun c => str_eqb x ($".t" ++ c)) [$"az"; $"gz"; $"pz"; $"b2"; $"bz"; $"bz2"; $"z2"; $"lz"; $"xz"] = true).
    { repeat (destruct I as [<-|I]; [vm_compute; reflexivity|]). destruct I. }
    apply orb_true_iff in U as [U|U]; apply existsb_exists in U as (c & J & U); apply str_eqb_eq in U; [left|right]; eauto.
Qed.
Lemma tar_members name m : tar_name name ->
  exists l, get_value (tar name (Members m)) ($"members") = Ok (VList l) /\ NoDup l /\ forall y, In y l <-> In y m.
Proof.
  intros (x & base & I & E)%tar_name_iff. assert (H : existsb (fun x => ends_with x name) tar_extensions = true).
  { apply existsb_exists. exists x. split; [exact I|]. apply ends_with_iff. eauto. }
  exists (nodup str_eq_dec m). split; [|split; [apply NoDup_nodup|intros y; apply nodup_In]].
  unfold get_value, get_data, get_data_from_plugin, tar, p_handles, p_cached, p_process. rewrite H. reflexivity.
Qed.
Lemma tar_other name a : ~ tar_name name -> get_value (tar name a) ($"members") = Err KeyErr.
Proof.
  intros N. assert (H : existsb (fun x => ends_with x name) tar_extensions = false).
  { apply not_true_iff_false. intros K. apply existsb_exists in K as (x & I & K). apply ends_with_iff in K as (t & K). apply N, tar_name_iff. eauto. }
  unfold get_value, get_data, get_data_from_plugin, tar, p_handles. rewrite H. reflexivity.
Qed.
