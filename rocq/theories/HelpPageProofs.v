(** Proofs about whole pages. *)
From Coq Require Import List NArith Bool Lia Arith Permutation Sorting.Sorted.
From Verif Require Import Py SortLib StrOrder ArgsValueProofs TypeModel HelpModel HelpSpec HelpProofs.
Import ListNotations.
Open Scope N_scope.

Lemma page_lines ls : page_words (page_text ls) = flat_map page_words ls.
Proof.
  assert (A : forall a b, page_words (a ++ NL :: b) = page_words a ++ page_words b).
  { intros a b. unfold page_words. induction a as [|c a IH].
    - reflexivity.
    - cbn [app split_on]. destruct (c =? NL); [cbn [flat_map]; now rewrite IH, app_assoc|].
      pose proof (split_on_nonnil NL a) as X. revert IH.
      assert (Y : exists h r, split_on NL a = h :: r /\ split_on NL (a ++ NL :: b) = h :: r ++ split_on NL b).
      { clear. induction a as [|c a IH]; [exists [], []; split; reflexivity|]. cbn [app split_on]. destruct (c =? NL).
        - destruct IH as (h & r & E1 & E2). exists [], (h :: r). rewrite E1, E2. split; reflexivity.
        - destruct IH as (h & r & E1 & E2). exists (c :: h), r. rewrite E1, E2. split; reflexivity. }
      destruct Y as (h & r & E1 & E2). rewrite E1, E2. intros _. cbn [flat_map]. rewrite flat_map_app. apply app_assoc. }
  unfold page_text. induction ls as [|x [|y l] IH]; [reflexivity|cbn [join_with flat_map]; now rewrite app_nil_r|].
  rewrite join_cons2 by discriminate. cbn [app]. rewrite A, IH. reflexivity.
Qed.
Lemma page_one l : ~ In NL l -> page_words l = shown l.
Proof. intros N. unfold page_words. rewrite split_on_nosep by exact N. cbn [flat_map]. apply app_nil_r. Qed.

Lemma unroff_app a b : ~ In 92 a -> unroff (a ++ b) = a ++ unroff b.
Proof.
  induction a as [|c a IH]; intros N; [reflexivity|]. cbn [app unroff]. destruct (N.eqb_spec c 92) as [->|X].
  - exfalso. apply N. now left.
  - f_equal. apply IH. intros Y. apply N. now right.
Qed.
Lemma unroff_plain a : ~ In 92 a -> unroff a = a.
Proof. intros N. rewrite <- (app_nil_r a) at 1. rewrite unroff_app by exact N. apply app_nil_r. Qed.
Lemma argument_app a b : ~ In 34 a -> argument (a ++ 34 :: b) = a.
Proof.
  induction a as [|c a IH]; intros N; [reflexivity|]. cbn [app argument]. destruct (N.eqb_spec c 34) as [->|X].
  - exfalso. apply N. now left.
  - f_equal. apply IH. intros Y. apply N. now right.
Qed.

Lemma section_shown s : ~ In NL s -> ~ In 92 s -> page_words ($".SH " ++ s) = text_words s.
Proof.
  intros N B. rewrite page_one; [|rewrite in_app_iff; intros [X|X]; [cbn in X; intuition discriminate|easy]].
  change (shown ($".SH " ++ s)) with (text_words (unroff s)). now rewrite unroff_plain.
Qed.
Lemma definition_shown s : ~ In NL s -> ~ In 92 s -> ~ In 34 s -> page_words (add_definition s) = text_words s.
Proof.
  intros N B Q. unfold add_definition. rewrite page_one.
  - change (shown _) with (text_words (unroff (argument (bd ++ s ++ rs ++ [34] ++ $" 4")))).
    assert (E : argument (bd ++ s ++ rs ++ [34] ++ $" 4") = bd ++ s ++ rs).
    { rewrite !app_assoc. rewrite <- (app_assoc _ [34] _). cbn [app]. refine (argument_app ((bd ++ s) ++ rs) ($" 4") _).
      rewrite !in_app_iff. intros [[X|X]|X]; [cbn in X; intuition discriminate|easy|cbn in X; intuition discriminate]. }
    rewrite E, unroff_font by apply font_bd. rewrite unroff_app by exact B. change (unroff rs) with (@nil char). now rewrite app_nil_r.
  - rewrite !in_app_iff. intros X. repeat (destruct X as [X|X]; [try (cbn in X; intuition discriminate); try easy|]).
    cbn in X; intuition discriminate.
Qed.
Lemma command_shown s : ~ In NL s -> ~ In 92 s -> page_words (bd ++ s ++ rs) = text_words s.
Proof.
  intros N B. rewrite page_one.
  - change (shown (bd ++ s ++ rs)) with (text_words (unroff (bd ++ s ++ rs))).
    rewrite unroff_font by apply font_bd. rewrite unroff_app by exact B. change (unroff rs) with (@nil char). now rewrite app_nil_r.
  - rewrite !in_app_iff. intros [X|[X|X]]; [cbn in X; intuition discriminate|easy|cbn in X; intuition discriminate].
Qed.

(** A text of one line can be read. *)
Lemma readable_line s : ~ In 92 s -> ~ In NL s -> ~ begins_control s -> Readable s.
Proof.
  intros B N C. split; [exact B|]. intros a b [<-|E]; [exact C|]. exfalso. apply N. rewrite E, !in_app_iff. right. left. now left.
Qed.

(** Parts of a paragraph *)
Lemma split_two_ok s : forall a b, split_two s = Some (a, b) -> s = a ++ [32; 32] ++ b.
Proof.
  induction s as [|c s IH]; intros a b; cbn [split_two]; [discriminate|].
  destruct (starts_with [32; 32] (c :: s)) eqn:S.
  - intros H. injection H as <- <-. apply starts_with_iff in S as [t S]. injection S as -> ->. reflexivity.
  - destruct (split_two s) as [[x y]|]; [|discriminate]. intros H. injection H as <- <-. cbn [app]. f_equal. now apply IH.
Qed.
Lemma rstrip_in p c : In c (rstrip p) -> In c p.
Proof. intros I. destruct (rstrip_split p) as (l & E & _). rewrite E, in_app_iff. now left. Qed.
Lemma strip_in p c : In c (strip p) -> In c p.
Proof. intros I. destruct (strip_split is_space p) as (l & r & E & _). rewrite E, !in_app_iff. right. now left. Qed.
Lemma begins_same s t : words s = words t -> begins_control s -> begins_control t.
Proof. intros E (w & r & H & C). exists w, r. now rewrite <- E. Qed.
Lemma upper_header s : forallb is_header s = true -> upper s = s.
Proof.
  induction s as [|c s IH]; [reflexivity|]. cbn [forallb upper map]. intros H. apply andb_true_iff in H as [H1 H2].
  fold (upper s). rewrite IH by exact H2. f_equal. clear IH H2. unfold upper_c.
  destruct (is_lower_az c || _)%bool eqn:E; [|reflexivity]. unfold is_header, is_upper_AZ, is_lower_az, between in *. lia.
Qed.
Lemma header_chars s c : forallb is_header s = true -> is_header c = false -> ~ In c s.
Proof. intros H N I. rewrite forallb_forall in H. apply H in I. congruence. Qed.

Lemma parse_line_ok p ls : Definable p -> parse_line p = Some ls -> flat_map page_words ls = text_words p.
Proof.
  intros (B & N & C & D) H. unfold parse_line in H. cbv zeta in H. destruct (starts_with ($"::") (lstrip (rstrip p))); [discriminate|].
  assert (I : forall x y : list str, Some x = Some y -> x = y) by congruence. apply I in H. clear I. subst ls.
  assert (B' : ~ In 92 (rstrip p)) by (intros X; now apply B, rstrip_in).
  assert (N' : ~ In NL (rstrip p)) by (intros X; now apply N, rstrip_in).
  assert (T : text_words (rstrip p) = text_words p) by apply text_same, words_rstrip.
  destruct (_ && _)%bool eqn:E1.
  { apply andb_true_iff in E1 as [_ E1]. cbn [flat_map]. rewrite app_nil_r. unfold add_section. rewrite upper_header by exact E1.
    now rewrite section_shown. }
  destruct (starts_with ($"$") (lstrip (rstrip p))).
  { cbn [flat_map]. rewrite app_nil_r. now rewrite command_shown. }
  destruct (split_two (strip (rstrip p))) as [[k v]|] eqn:S.
  - apply split_two_ok in S. cbn [flat_map]. change (page_words ($".PP")) with (@nil str). cbn [app].
    destruct (strip_split is_space (rstrip p)) as (l & r & E & Hl & Hr & Ed). fold (strip (rstrip p)) in E, Ed.
    destruct (rstrip_split p) as (r2 & E2 & Hr2).
    assert (K : k <> []) by (intros ->; rewrite S in Ed; destruct Ed as [Ed _]; discriminate).
    assert (P : p = (l ++ k) ++ [32; 32] ++ (v ++ r ++ r2)).
    { rewrite E2, E, S. rewrite <- !app_assoc. reflexivity. }
    assert (W : words (l ++ k) <> []).
    { rewrite words_spaces by exact Hl. destruct k as [|c k]; [easy|]. rewrite S in Ed. destruct Ed as [Ed _]. cbn [app] in Ed.
      intros X. assert (Y : In c (concat (words (c :: k)))) by (rewrite words_chars; cbn [filter]; rewrite Ed; now left).
      rewrite X in Y. destruct Y. }
    destruct (D _ _ P W) as [Q V].
    assert (In_k : forall c, In c k -> In c p) by (intros c I; rewrite P, !in_app_iff; left; now right).
    assert (In_v : forall c, In c v -> In c p) by (intros c I; rewrite P, !in_app_iff; right; right; now left).
    unfold add. rewrite definition_shown; [|auto|auto|intros I; apply Q; rewrite in_app_iff; now right].
    rewrite process_words.
    + rewrite <- T. assert (X : text_words (rstrip p) = text_words (k ++ [32; 32] ++ v)).
      { apply text_same. rewrite <- (words_strip (rstrip p)). f_equal. exact S. }
      rewrite app_nil_r. rewrite X. symmetry. exact (text_app k 32 (32 :: v) eq_refl).
    + apply readable_line; [auto|auto|]. intros X. apply V. revert X. apply begins_same. symmetry.
      rewrite app_assoc. rewrite (words_trailing (v ++ r) r2) by exact Hr2. now apply words_trailing.
  - cbn [flat_map]. rewrite app_nil_r. unfold add. rewrite process_words; [exact T|].
    apply readable_line; auto. intros X. apply C. revert X. apply begins_same, words_rstrip.
Qed.
Lemma include_strip p name : Include p name -> lstrip (rstrip p) = $"::" ++ name.
Proof.
  intros (l & r & -> & Hl & Hr & E).
  assert (R : rstrip (l ++ $"::" ++ name ++ r) = l ++ $"::" ++ name).
  { unfold rstrip, rstrip_p. rewrite !app_assoc. rewrite rev_app_distr. rewrite lstrip_app.
    - rewrite rev_involutive. now rewrite <- !app_assoc.
    - now rewrite forallb_rev.
    - rewrite rev_app_distr. destruct E as [->|(a & c & -> & Hc)].
      + rewrite rev_app_distr. reflexivity.
      + rewrite rev_app_distr. exact Hc. }
  rewrite R. apply lstrip_app; [exact Hl|reflexivity].
Qed.
Lemma include_marker p : starts_with ($"::") (lstrip (rstrip p)) = true -> exists name, Include p name.
Proof.
  intros S. apply starts_with_iff in S as [name S]. exists name.
  destruct (rstrip_split p) as (r & E & Hr). destruct (lstrip_split is_space (rstrip p)) as (l & t & E2 & Hl & E3 & _).
  fold (lstrip (rstrip p)) in E3. rewrite S in E3. subst t. exists l, r. split.
  { rewrite E, E2 at 1. rewrite <- !app_assoc. reflexivity. }
  split; [exact Hl|]. split; [exact Hr|]. destruct (rev name) as [|c q] eqn:R.
  - left. rewrite <- (rev_involutive name). rewrite R. reflexivity.
  - right. exists (rev q), c. split; [rewrite <- (rev_involutive name); rewrite R; reflexivity|].
    assert (X : rev (rstrip p) = c :: q ++ rev (l ++ $"::")).
    { rewrite E2, app_assoc, rev_app_distr, R. reflexivity. }
    unfold rstrip, rstrip_p in X. rewrite rev_involutive in X.
    destruct (lstrip_split is_space (rev p)) as (l' & t & _ & _ & E4 & Ht). rewrite E4 in X. subst t. exact Ht.
Qed.
Lemma parse_template text ps ws : Template text ps ws ->
  exists n, forall fuel, (n <= fuel)%nat -> exists out,
    fold_right (fun line rest =>
        match match parse_line line with
              | Some l => inl l
              | None =>
                  match text (skipn 2 (lstrip (rstrip line))) with
                  | Some l => parse_lines text fuel l
                  | None => inr NoInclude
                  end
              end with
        | inl l => match rest with inl r => inl (l ++ r) | e => e end
        | inr e => inr e
        end) (inl []) ps = inl out /\ flat_map page_words out = ws.
Proof.
  induction 1 as [|p ps ws NI D T (n & IH)|p name l inner ps ws I E T1 (n1 & IH1) T (n & IH)].
  - exists 0%nat. intros fuel _. exists []. split; reflexivity.
  - exists n. intros fuel L. destruct (IH fuel L) as (out & E & W). cbn [fold_right]. rewrite E.
    destruct (parse_line p) as [ls|] eqn:P.
    + exists (ls ++ out). split; [reflexivity|]. rewrite flat_map_app, W. f_equal. now apply parse_line_ok.
    + exfalso. unfold parse_line in P. cbv zeta in P. destruct (starts_with ($"::") (lstrip (rstrip p))) eqn:S; [|discriminate].
      apply include_marker in S as [name S]. now apply (NI name).
  - exists (S (Nat.max n n1)). intros fuel L. destruct fuel as [|fuel]; [lia|].
    destruct (IH (S fuel) ltac:(lia)) as (out & E2 & W). destruct (IH1 fuel ltac:(lia)) as (out1 & E1 & W1).
    cbn [fold_right]. rewrite E2. apply include_strip in I.
    assert (P : parse_line p = None) by (unfold parse_line; cbv zeta; rewrite I; reflexivity).
    rewrite P, I. change (skipn 2 ($"::" ++ name)) with name. rewrite E.
    cbn [parse_lines]. rewrite E1. exists (out1 ++ out). split; [reflexivity|]. now rewrite flat_map_app, W, W1.
Qed.
Lemma template_words text lines ws : Template text (wrap lines) ws ->
  exists n, forall fuel, (n <= fuel)%nat -> exists out,
    parse_lines text fuel lines = inl out /\ page_words (page_text out) = ws.
Proof.
  intros T. apply parse_template in T as (n & H). exists (S n). intros fuel L. destruct fuel as [|fuel]; [lia|].
  destruct (H fuel ltac:(lia)) as (out & E & W). exists out. split; [exact E|]. now rewrite page_lines.
Qed.

(** Names *)
Lemma name_not s c : Name s -> is_w c = false -> ~ In c s.
Proof. intros [_ H] N I. apply H in I. congruence. Qed.
Lemma w_not_space c : is_w c = true -> is_space c = false.
Proof. unfold is_w, is_space, is_d, is_lower_az, is_upper_AZ, between. lia. Qed.
Lemma text_word s : s <> [] -> (forall c, In c s -> is_space c = false) -> ~ In 96 s -> text_words s = [s].
Proof.
  intros N S T. unfold text_words. assert (E : unticked s = s).
  { clear N S. induction s as [|c s IH]; [reflexivity|]. cbn [unticked filter]. fold (unticked s). destruct (N.eqb_spec c 96) as [->|X].
    - exfalso. apply T. now left.
    - cbn [negb]. f_equal. apply IH. intros Y. apply T. now right. }
  rewrite E. apply words_word. split; [exact N|]. rewrite forallb_forall. intros c I. now rewrite (S c I).
Qed.
Lemma title_words plugin attr : Name plugin -> Name attr ->
  page_words (add_definition (attribute_title plugin attr)) = [attribute_title plugin attr].
Proof.
  intros P A.
  assert (K : forall c, In c (attribute_title plugin attr) -> is_w c = true \/ In c [46; 91; 93]).
  { intros c. unfold attribute_title. destruct (str_eqb plugin _); rewrite !in_app_iff.
    - intros [I|I]; [|left; now apply A]. cbn in I. repeat (destruct I as [<-|I]; [first [left; reflexivity|right; cbn; tauto]|]). destruct I.
    - intros [I|[I|I]]; [left; now apply P| |left; now apply A]. right. cbn in I |- *. tauto. }
  assert (X : forall c, is_w c = false -> ~ In c [46; 91; 93] -> ~ In c (attribute_title plugin attr)).
  { intros c W Q I. destruct (K c I) as [Y|Y]; [congruence|easy]. }
  rewrite definition_shown; [|apply X; [reflexivity|cbn; intuition discriminate]..].
  apply text_word.
  - unfold attribute_title. destruct (str_eqb plugin _); [discriminate|]. destruct P as [P _]. destruct plugin; [easy|discriminate].
  - intros c I. destruct (K c I) as [Y|[<-|[<-|[<-|[]]]]]; [now apply w_not_space| | |]; reflexivity.
  - apply X; [reflexivity|cbn; intuition discriminate].
Qed.
Lemma type_words t :
  page_words (add ($"Type: " ++ type_name t ++ $"  ( " ++ join_with [32] (operators t) ++ $" )"))
  = [$"Type:"; label t; $"("] ++ operators t ++ [$")"].
Proof. destruct t; vm_compute; reflexivity. Qed.
Lemma add_nil : page_words (add []) = [].
Proof. reflexivity. Qed.
Lemma add_br : page_words (add br) = [].
Proof. reflexivity. Qed.
Lemma attribute_words plugin n t help : Name plugin -> Name n -> Readable help ->
  flat_map page_words (attribute_lines plugin (n, t, help)) = described plugin n (label t) (operators t) help.
Proof.
  intros P A R. cbn [attribute_lines flat_map]. rewrite title_words, type_words, add_br, add_nil by assumption.
  unfold add. rewrite process_words by exact R. unfold described, attribute_title. rewrite !app_nil_r. rewrite <- !app_assoc. reflexivity.
Qed.
Lemma upper_w c : is_w c = true -> is_space (upper_c c) = false /\ upper_c c <> 92 /\ upper_c c <> 96 /\ upper_c c <> NL.
Proof.
  unfold upper_c. change NL with 10. destruct (is_lower_az c || _)%bool eqn:E; unfold is_w, is_space, is_d, is_lower_az, is_upper_AZ, between in *; lia.
Qed.
Lemma section_words n : Name n -> page_words (add_section (n ++ $" Plugin")) = [upper n; $"PLUGIN"].
Proof.
  intros [N H].
  assert (E : upper (n ++ $" Plugin") = upper n ++ 32 :: $"PLUGIN").
  { unfold upper. rewrite map_app. reflexivity. }
  assert (U : forall c, In c (upper n) -> is_space c = false /\ c <> 92 /\ c <> 96 /\ c <> NL).
  { intros c I. apply in_map_iff in I as (d & <- & I). now apply upper_w, H. }
  unfold add_section. rewrite E. rewrite section_shown.
  - rewrite text_app by reflexivity. rewrite text_word; [reflexivity|destruct n; [easy|discriminate]| |].
    + intros c I. now apply U.
    + intros I. now apply U in I.
  - rewrite in_app_iff. intros [I|I]; [now apply U in I|cbn in I; intuition discriminate].
  - rewrite in_app_iff. intros [I|I]; [now apply U in I|cbn in I; intuition discriminate].
Qed.
Lemma attributes_words p : Documented p -> flat_map page_words (render_attributes p) = attributes_of p.
Proof.
  intros (N & _ & A). unfold render_attributes, attributes_of. rewrite flat_map_app. cbn [flat_map]. rewrite add_nil, !app_nil_r.
  induction (h_attributes p) as [|[[n t] help] l IH]; [reflexivity|]. cbn [flat_map]. rewrite flat_map_app.
  rewrite IH by (intros m u h I; apply (A m u h); now right). f_equal. destruct (A n t help (or_introl eq_refl)). now apply attribute_words.
Qed.

(** Pages *)
Definition pw (p : page) : option (list str) := match p with Some l => Some (flat_map page_words l) | None => None end.
Lemma pw_cat a b : pw (pcat a b) = match pw a, pw b with Some x, Some y => Some (x ++ y) | _, _ => None end.
Proof. destruct a, b; try reflexivity. cbn [pcat pw]. now rewrite flat_map_app. Qed.
Lemma pw_pages {A} (f : A -> page) g (l : list A) : (forall x, In x l -> pw (f x) = Some (g x)) ->
  pw (pages f l) = Some (flat_map g l).
Proof.
  induction l as [|x l IH]; intros H; [reflexivity|]. cbn [pages flat_map]. rewrite pw_cat, H by now left.
  rewrite IH; [reflexivity|]. intros y Y. apply H. now right.
Qed.
Lemma pw_shown p ws : pw p = Some ws -> exists lines, p = Some lines /\ page_words (page_text lines) = ws.
Proof. destruct p as [l|]; [|discriminate]. cbn [pw]. intros H. exists l. split; [reflexivity|]. rewrite page_lines. congruence. Qed.
Lemma pages_none {A} (f : A -> page) l x : In x l -> f x = None -> pages f l = None.
Proof.
  induction l as [|y l IH]; [easy|]. intros [<-|I] H; cbn [pages]; [now rewrite H|]. rewrite (IH I H). now destruct (f y).
Qed.
Lemma doc_shown d : (forall s, d = Some s -> Readable s) -> d <> None -> pw (add_doc d) = Some (doc_words d).
Proof.
  destruct d as [d|]; [|easy]. intros R _. cbn [add_doc pw flat_map doc_words]. rewrite app_nil_r. unfold add.
  now rewrite process_words by now apply R.
Qed.
Lemma plugin_words p : Documented p -> h_doc p <> None -> pw (render_plugin p) = Some (section_of p).
Proof.
  intros D H. unfold render_plugin. rewrite !pw_cat. rewrite doc_shown; [|now apply D|exact H].
  cbn [pw]. rewrite flat_map_app, attributes_words by exact D. destruct D as (N & _). cbn [flat_map].
  rewrite section_words, add_nil by exact N. unfold section_of. rewrite !app_nil_r. cbn [app]. reflexivity.
Qed.

Lemma start_words header title d : Header header -> ~ In NL title -> (forall s, d = Some s -> Readable s) ->
  flat_map page_words (start header title d) = described_by d.
Proof.
  intros H N R. unfold start, add_header. destruct (H title N) as (r & -> & Nr). rewrite flat_map_app. cbn [flat_map].
  assert (T : page_words ($".TH " ++ r) = []).
  { rewrite page_one; [reflexivity|]. rewrite in_app_iff. intros [I|I]; [cbn in I; intuition discriminate|easy]. }
  rewrite T. change (page_words ($".nh")) with (@nil str). cbn [app]. destruct d as [[|c d]|]; [reflexivity| |reflexivity].
  cbn [flat_map]. unfold add at 1. rewrite process_words by now apply R. rewrite add_nil, !app_nil_r. reflexivity.
Qed.
Lemma readable_check s w : has_char 92 s = false -> has_char NL s = false -> hd_error (words s) = Some w -> control w = false -> Readable s.
Proof.
  intros B N W C. apply readable_line; [now apply has_char_false..|].
  intros (w' & r & E & C'). rewrite E in W. cbn [hd_error] in W. congruence.
Qed.
Lemma attributes_readable : Readable attributes_description.
Proof. apply (readable_check _ ($"This")); vm_compute; reflexivity. Qed.
Lemma types_readable : Readable types_description.
Proof. apply (readable_check _ ($"This")); vm_compute; reflexivity. Qed.
Lemma plugins_readable : Readable plugins_description.
Proof. apply (readable_check _ ($"This")); vm_compute; reflexivity. Qed.
Lemma page_order registered : (forall p, In p registered -> h_name p <> []) ->
  StronglySorted Before (isort (fun a b => str_leb (page_key a) (page_key b)) registered).
Proof.
  intros N. pose proof (isort_sorted (fun a b => str_leb (page_key a) (page_key b))
    (fun a b => str_leb_total _ _) (fun a b c => str_leb_trans _ _ _) registered) as S.
  assert (I : forall x, In x (isort (fun a b => str_leb (page_key a) (page_key b)) registered) -> h_name x <> []).
  { intros x X. apply N. now apply isort_in in X. }
  revert S I. induction (isort _ registered) as [|x l IH]; intros S I; [constructor|].
  apply StronglySorted_inv in S as [S F]. constructor; [apply IH; [exact S|intros y Y; apply I; now right]|].
  rewrite Forall_forall in F |- *. intros y Y. specialize (F y Y). unfold SortLib.le, page_key in F. unfold Before.
  destruct (str_eqb (h_name x) ($"file")) eqn:E1; [left; now apply str_eqb_eq|]. right.
  destruct (str_eqb (h_name y) ($"file")) eqn:E2.
  - specialize (I x (or_introl eq_refl)). destruct (h_name x); [easy|discriminate].
  - split; [now apply str_eqb_neq|exact F].
Qed.
Lemma attributes_page header registered : Header header ->
  (forall p, In p registered -> Documented p /\ h_doc p <> None) ->
  exists ps lines, Permutation registered ps /\ StronglySorted Before ps /\
    attributes_manpage header registered = Some lines /\
    page_words (page_text lines)
    = [$"DESCRIPTION"] ++ text_words attributes_description ++ flat_map section_of ps ++ [$"SEE"; $"ALSO"; $"ff(1)"].
Proof.
  intros H D. set (ps := isort (fun a b => str_leb (page_key a) (page_key b)) registered). exists ps.
  assert (D' : forall p, In p ps -> Documented p /\ h_doc p <> None).
  { intros p I. apply D. now apply isort_in in I. }
  destruct (pw_shown (attributes_manpage header registered)
    ([$"DESCRIPTION"] ++ text_words attributes_description ++ flat_map section_of ps ++ [$"SEE"; $"ALSO"; $"ff(1)"])) as (lines & E & W).
  - unfold attributes_manpage. fold ps. rewrite !pw_cat. rewrite (pw_pages render_plugin section_of) by (intros p I; now apply plugin_words; apply D').
    change (pw (Some [add_section ($"See Also"); add ($"ff(1)")])) with (Some [$"SEE"; $"ALSO"; $"ff(1)"]).
    cbn [pw]. rewrite start_words; [|exact H|apply has_char_false; vm_compute; reflexivity|intros s E; injection E as <-; apply attributes_readable].
    change (described_by (Some attributes_description)) with ([$"DESCRIPTION"] ++ text_words attributes_description).
    rewrite <- !app_assoc; reflexivity.
  - exists lines. split; [apply isort_perm|]. split; [apply page_order; intros p I; now apply D in I as (((N & _) & _) & _)|]. now split.
Qed.
Lemma attributes_fail header registered p : In p registered -> h_doc p = None -> attributes_manpage header registered = None.
Proof.
  intros I H. unfold attributes_manpage. rewrite (pages_none render_plugin _ p).
  - reflexivity.
  - now apply isort_in.
  - unfold render_plugin. now rewrite H.
Qed.

(** Details *)
Lemma detail_words title w r text : words (title ++ [58]) = w :: r -> control w = false -> line_text (title ++ [58]) -> ~ In 96 title -> line_text text ->
  flat_map page_words (detail title text) = (w :: r) ++ text_words text.
Proof.
  intros W C [T1 T2] T3 [L1 L2]. unfold detail. cbn [flat_map]. rewrite add_br. cbn [app]. rewrite app_nil_r. unfold add.
  assert (E : title ++ $": " ++ text = (title ++ [58]) ++ 32 :: text) by (rewrite <- app_assoc; reflexivity).
  refine (eq_trans (f_equal (fun x => page_words (process x)) E) _). rewrite process_words.
  - rewrite text_app by reflexivity. change (text_words (title ++ [58]) ++ text_words text = (w :: r) ++ text_words text).
    refine (f_equal (fun x => x ++ text_words text) _). refine (eq_trans _ W). unfold text_words. apply (f_equal words).
    assert (U : forall s, ~ In 96 s -> unticked s = s).
    { clear. induction s as [|c s IH]; intros N; [reflexivity|]. cbn [unticked filter]. destruct (N.eqb_spec c 96) as [->|X].
      - exfalso. apply N. now left.
      - cbn [negb]. f_equal. apply IH. intros Y. apply N. now right. }
    apply U. rewrite in_app_iff. intros [X|[X|[]]]; [easy|discriminate].
  - apply readable_line.
    + rewrite in_app_iff. intros [X|[X|X]]; [easy|discriminate|easy].
    + rewrite in_app_iff. intros [X|[X|X]]; [easy|discriminate|easy].
    + intros (w' & r' & E' & C'). rewrite words_app, W in E' by reflexivity. injection E' as <- _. congruence.
Qed.
Lemma details_words p : Name (h_name p) -> Detailed p -> flat_map page_words (render_plugin_detail p false) = details_of p.
Proof.
  intros N (S & P & _). unfold render_plugin_detail. rewrite !flat_map_app. cbn [flat_map]. rewrite app_nil_r.
  assert (L : line_text (h_name p)) by (split; apply (name_not _ _ N); reflexivity).
  assert (K : forall t, has_char 92 t = false -> has_char NL t = false -> line_text t) by (intros t A B; split; now apply has_char_false).
  rewrite (detail_words ($"Name") ($"Name:") []); [|reflexivity|reflexivity|now apply K|now apply has_char_false|exact L].
  rewrite (detail_words ($"Source") ($"Source:") []); [|reflexivity|reflexivity|now apply K|now apply has_char_false|exact S].
  rewrite (detail_words ($"Path") ($"Path:") []); [|reflexivity|reflexivity|now apply K|now apply has_char_false|exact P].
  rewrite (detail_words ($"Uses cache") ($"Uses") [$"cache:"]); [|reflexivity|reflexivity|now apply K|now apply has_char_false|destruct (h_use_cache p); now apply K].
  rewrite (text_word (h_name p)); [|apply N|intros c I; now apply w_not_space, N|now apply (name_not _ _ N)].
  unfold details_of. assert (Y : text_words (if h_use_cache p then $"Yes" else $"No") = [if h_use_cache p then $"Yes" else $"No"]) by (destruct (h_use_cache p); reflexivity).
  rewrite Y. cbn [app]. rewrite <- ?app_assoc. reflexivity.
Qed.
Lemma details_full p : Name (h_name p) -> Detailed p -> flat_map page_words (render_plugin_detail p true) = details_of p ++ author_of p.
Proof.
  intros N D. rewrite <- (details_words p N D). destruct D as (_ & _ & A & E & U).
  assert (K : forall t, has_char 92 t = false -> has_char NL t = false -> line_text t) by (intros t X B; split; now apply has_char_false).
  unfold render_plugin_detail. rewrite !flat_map_app. cbn [flat_map]. rewrite <- !app_assoc. do 4 apply f_equal. cbn [app].
  rewrite (detail_words ($"Author") ($"Author:") []); [|reflexivity|reflexivity|now apply K|now apply has_char_false|exact A].
  rewrite (detail_words ($"Email") ($"Email:") []); [|reflexivity|reflexivity|now apply K|now apply has_char_false|exact E].
  rewrite (detail_words ($"Url") ($"Url:") []); [|reflexivity|reflexivity|now apply K|now apply has_char_false|exact U].
  unfold author_of. cbn [app]. now rewrite <- ?app_assoc.
Qed.
Lemma plugin_page header registered name p : Header header -> Documented p -> Detailed p ->
  find (fun q => str_eqb (h_name q) name) registered = Some p ->
  exists lines, plugin_manpage header registered name = Some lines /\
    page_words (page_text lines)
    = described_by (h_doc p) ++ [$"ATTRIBUTES"] ++ attributes_of p
      ++ [$"DETAILS"] ++ details_of p ++ author_of p ++ [$"SEE"; $"ALSO"; $"ff(1),"; $"ff(7)"].
Proof.
  intros H D T F. unfold plugin_manpage. rewrite F. eexists. split; [reflexivity|].
  rewrite !page_lines. rewrite !flat_map_app. rewrite attributes_words by exact D.
  destruct D as (N & R & _). rewrite details_full by assumption. rewrite start_words; [|exact H| |exact R].
  - rewrite <- !app_assoc. reflexivity.
  - rewrite in_app_iff. intros [I|I]; [now apply (name_not _ NL N eq_refl) in I|cbn in I; intuition discriminate].
Qed.
Lemma plugin_unknown header registered name : plugin_manpage header registered name = None <-> ~ In name (map h_name registered).
Proof.
  unfold plugin_manpage. destruct (find _ registered) as [p|] eqn:F.
  - split; [discriminate|]. intros N. exfalso. apply N. apply find_some in F as [I E]. apply str_eqb_eq in E. subst name. now apply in_map.
  - split; [|reflexivity]. intros _ I. apply in_map_iff in I as (p & <- & I). apply (find_none _ _ F) in I. now rewrite str_eqb_refl in I.
Qed.
Lemma type_shown doc t : (forall d, doc t = Some d -> Readable d) -> doc t <> None -> pw (render_type doc t) = Some (type_of doc t).
Proof.
  intros R N. unfold render_type. rewrite !pw_cat, doc_shown by assumption. unfold type_of.
  generalize (doc_words (doc t)) as d. intros d. cbn [pw flat_map]. rewrite add_nil, add_br.
  assert (E : page_words (add_section (type_name t ++ $" Type")) ++ page_words (add ($"Name:  " ++ type_name t))
    ++ page_words (add ($"Operators:  " ++ join_with [32] (operators t))) ++ page_words (add ($"Count: " ++ count_name t))
    = [upper (label t); $"TYPE"; $"Name:"; label t; $"Operators:"] ++ operators t ++ [$"Count:"; counted_as t]).
  { destruct t; vm_compute; reflexivity. }
  f_equal. cbn [app]. rewrite !app_nil_r. 
  transitivity ((page_words (add_section (type_name t ++ $" Type")) ++ page_words (add ($"Name:  " ++ type_name t))
    ++ page_words (add ($"Operators:  " ++ join_with [32] (operators t))) ++ page_words (add ($"Count: " ++ count_name t))) ++ d).
  - now rewrite <- !app_assoc.
  - rewrite E. cbn [app]. rewrite <- !app_assoc. reflexivity.
Qed.
Lemma types_page header doc registered : Header header ->
  (forall t, In t registered -> doc t <> None /\ forall d, doc t = Some d -> Readable d) ->
  exists ts lines, Permutation registered ts /\ StronglySorted (fun a b => str_leb (label a) (label b) = true) ts /\
    types_manpage header doc registered = Some lines /\
    page_words (page_text lines)
    = [$"DESCRIPTION"] ++ text_words types_description ++ flat_map (type_of doc) ts ++ [$"SEE"; $"ALSO"; $"ff(1),"; $"ff(7)"].
Proof.
  intros H D. set (ts := isort (fun a b => str_leb (label a) (label b)) registered). exists ts.
  destruct (pw_shown (types_manpage header doc registered)
    ([$"DESCRIPTION"] ++ text_words types_description ++ flat_map (type_of doc) ts ++ [$"SEE"; $"ALSO"; $"ff(1),"; $"ff(7)"])) as (lines & E & W).
  - unfold types_manpage. fold ts. rewrite !pw_cat.
    rewrite (pw_pages (render_type doc) (type_of doc)) by (intros t I; apply isort_in, D in I as [I1 I2]; now apply type_shown).
    change (pw (Some [add_section ($"See Also"); add ($"ff(1), ff(7)")])) with (Some [$"SEE"; $"ALSO"; $"ff(1),"; $"ff(7)"]).
    cbn [pw]. rewrite start_words; [|exact H|apply has_char_false; vm_compute; reflexivity|intros s E; injection E as <-; apply types_readable].
    change (described_by (Some types_description)) with ([$"DESCRIPTION"] ++ text_words types_description).
    rewrite <- !app_assoc. reflexivity.
  - exists lines. split; [apply isort_perm|]. split; [|now split].
    exact (isort_sorted (fun a b => str_leb (label a) (label b)) (fun a b => str_leb_total _ _) (fun a b c => str_leb_trans _ _ _) registered).
Qed.
Lemma listed_words p : Documented p -> Detailed p -> h_doc p <> None -> pw (render_listed p) = Some (listed_of p).
Proof.
  intros D T H. unfold render_listed. rewrite pw_cat, doc_shown; [|now apply D|exact H]. destruct D as (N & _).
  cbn [pw]. rewrite !flat_map_app. rewrite details_words by assumption. cbn [flat_map]. rewrite section_words, add_nil by exact N.
  unfold listed_of. rewrite !app_nil_r. rewrite <- app_assoc. reflexivity.
Qed.
Lemma plugins_page header registered : Header header ->
  (forall p, In p registered -> Documented p /\ Detailed p /\ h_doc p <> None) ->
  exists ps lines, Permutation registered ps /\ StronglySorted (fun a b => str_leb (h_name a) (h_name b) = true) ps /\
    plugins_manpage header registered = Some lines /\
    page_words (page_text lines)
    = [$"DESCRIPTION"] ++ text_words plugins_description ++ flat_map listed_of ps ++ [$"SEE"; $"ALSO"; $"ff(1),"; $"ff(7)"].
Proof.
  intros H D. set (ps := isort (fun a b => str_leb (h_name a) (h_name b)) registered). exists ps.
  destruct (pw_shown (plugins_manpage header registered)
    ([$"DESCRIPTION"] ++ text_words plugins_description ++ flat_map listed_of ps ++ [$"SEE"; $"ALSO"; $"ff(1),"; $"ff(7)"])) as (lines & E & W).
  - unfold plugins_manpage. fold ps. rewrite !pw_cat.
    rewrite (pw_pages render_listed listed_of) by (intros p I; apply isort_in, D in I as (I1 & I2 & I3); now apply listed_words).
    change (pw (Some [add_section ($"See Also"); add ($"ff(1), ff(7)")])) with (Some [$"SEE"; $"ALSO"; $"ff(1),"; $"ff(7)"]).
    cbn [pw]. rewrite start_words; [|exact H|apply has_char_false; vm_compute; reflexivity|intros s E; injection E as <-; apply plugins_readable].
    change (described_by (Some plugins_description)) with ([$"DESCRIPTION"] ++ text_words plugins_description).
    rewrite <- !app_assoc. reflexivity.
  - exists lines. split; [apply isort_perm|]. split; [|now split].
    exact (isort_sorted (fun a b => str_leb (h_name a) (h_name b)) (fun a b => str_leb_total _ _) (fun a b c => str_leb_trans _ _ _) registered).
Qed.

(** Templates without includes, and with includes that do not exist *)
Lemma template_plain text lines : (forall p, In p (wrap lines) -> Definable p /\ forall name, ~ Include p name) ->
  forall fuel, exists out, parse_lines text (S fuel) lines = inl out /\ page_words (page_text out) = flat_map text_words lines.
Proof.
  intros H fuel. 
  assert (E : flat_map text_words (wrap lines) = flat_map text_words lines).
  { assert (X : forall ls, flat_map text_words ls = flat_map text_words (flat_map words ls)).
    { induction ls as [|l ls IH]; [reflexivity|]. cbn [flat_map]. rewrite flat_map_app, <- IH, <- text_of_words. reflexivity. }
    rewrite (X (wrap lines)), (X lines). now rewrite wrap_words. }
  rewrite <- E. clear E. cbn [parse_lines]. induction (wrap lines) as [|p ps IH]; [exists []; split; reflexivity|].
  destruct IH as (out & E & W); [intros q Q; apply H; now right|]. destruct (H p (or_introl eq_refl)) as [D NI].
  cbn [fold_right]. rewrite E. destruct (parse_line p) as [ls|] eqn:P.
  - exists (ls ++ out). split; [reflexivity|]. rewrite page_lines in *. rewrite flat_map_app, W. cbn [flat_map]. f_equal. now apply parse_line_ok.
  - exfalso. unfold parse_line in P. cbv zeta in P. destruct (starts_with ($"::") (lstrip (rstrip p))) eqn:S; [|discriminate].
    apply include_marker in S as [name S]. now apply (NI name).
Qed.
Lemma template_fails text fuel lines p name : In p (wrap lines) -> Include p name -> text name = None ->
  forall out, parse_lines text fuel lines <> inl out.
Proof.
  intros I Inc N. destruct fuel as [|fuel]; [discriminate|]. cbn [parse_lines]. induction (wrap lines) as [|q ps IH]; [easy|].
  cbn [fold_right]. destruct I as [->|I]; intros out.
  - apply include_strip in Inc. assert (P : parse_line p = None) by (unfold parse_line; cbv zeta; rewrite Inc; reflexivity).
    rewrite P, Inc. change (skipn 2 ($"::" ++ name)) with name. rewrite N. discriminate.
  - destruct (match parse_line q with Some _ => _ | None => _ end); [|discriminate].
    destruct (fold_right _ _ ps) as [r|e] eqn:E; [|discriminate]. exfalso. now apply (IH I r).
Qed.
