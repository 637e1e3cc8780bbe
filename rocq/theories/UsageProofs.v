(** The list of options in the help text *)
From Coq Require Import List NArith ZArith Bool Lia.
From Verif Require Import Py ArgsModel WrapModel UsageModel LogSpec UsageSpec WrapProofs.
Import ListNotations.

Lemma join2 (sep x y : str) l : join_with sep (x :: y :: l) = x ++ sep ++ join_with sep (y :: l).
Proof. reflexivity. Qed.
Lemma join_names : forall l, join_with ($", ") l = join_with [32%N] (names l).
Proof.
  induction l as [|s [|t l] IH]; [reflexivity..|]. rewrite join2, IH.
  change (names (s :: t :: l)) with ((s ++ $",") :: names (t :: l)).
  destruct (names (t :: l)) as [|n r] eqn:E; [destruct l; discriminate|]. rewrite join2, <- app_assoc. reflexivity.
Qed.
Lemma join_snoc (sep x : str) l : l <> [] -> join_with sep (l ++ [x]) = join_with sep l ++ sep ++ x.
Proof.
  induction l as [|y [|z l] IH]; [easy|reflexivity|]. intros _. change ((y :: z :: l) ++ [x]) with (y :: z :: (l ++ [x])).
  rewrite !join2. change (z :: (l ++ [x])) with ((z :: l) ++ [x]). rewrite IH by discriminate. now rewrite <- !app_assoc.
Qed.
Lemma names_nonnil l : l <> [] -> names l <> [].
Proof. destruct l as [|s [|t l]]; [easy|discriminate..]. Qed.
Lemma format_head o : ho_strings o <> [] -> format_option o = head_text o.
Proof.
  intros N. apply names_nonnil in N. unfold format_option, head_text, heading.
  destruct (ho_metavar o) as [m|]; destruct (ho_action o); rewrite ?join_names; try reflexivity; now rewrite join_snoc.
Qed.

(** The first line begins with the first character of the text. *)
Section First.
  Variable split : str -> list str.
  Variable width : Z.
  Variable first next : str.
  Lemma trimmed_last l z : trimmed (l ++ [z]) = if hollow z then l else l ++ [z].
  Proof. unfold trimmed. rewrite rev_app_distr. cbn [rev app]. now rewrite rev_involutive. Qed.
  Lemma trimmed_first (c : char) (x : str) (l : list str) : is_space c = false -> exists l', trimmed ((c :: x) :: l) = (c :: x) :: l'.
  Proof.
    intros H. destruct (@exists_last str ((c :: x) :: l)) as (k & z & E); [discriminate|]. rewrite E, trimmed_last.
    destruct (hollow z) eqn:Z; [|eauto]. destruct k as [|w r]; cbn [app] in E; injection E as E _.
    - subst z. cbn in Z. rewrite H in Z. discriminate.
    - subst w. eauto.
  Qed.
  Lemma full_first c x chunks : is_space c = false ->
    exists y l, fst (full_line width first next true ((c :: x) :: chunks)) = (c :: y) :: l.
  Proof.
    intros H. unfold full_line. cbv zeta. cbn [rest_of negb]. rewrite andb_false_r. cbn [fit].
    set (w := (width - len (indent first next true))%Z).
    destruct (0 + len (c :: x) <=? w)%Z eqn:E.
    - destruct (fit w (0 + len (c :: x)) chunks) as [l r]. destruct r as [|d more]; [cbn; eauto|]. destruct (w <? len d)%Z; cbn; eauto.
    - apply Z.leb_gt in E. assert (L : (w <? len (c :: x))%Z = true) by (apply Z.ltb_lt; lia). rewrite L. cbn [fst app].
      set (n := Z.to_nat _). assert (P : (1 <= n)%nat) by (unfold n; cbn [total fold_right]; destruct (w <? 1)%Z eqn:W; [lia|apply Z.ltb_ge in W; lia]).
      destruct (cut_bounds (c :: x) n) as [_ B]. destruct (cut (c :: x) n) as [|e] eqn:Q; [lia|]. cbn [firstn]. eauto.
  Qed.
  Lemma wrap_start c text lines : Splits split -> is_space c = false ->
    wrap split width first next (c :: text) = Ok lines -> exists t rest, lines = (first ++ c :: t) :: rest.
  Proof.
    intros S H. unfold wrap. destruct (width <=? 0)%Z; [discriminate|].
    destruct (munge_first c text H) as (s & M). pose proof (S (munge (c :: text))) as C. rewrite M in *.
    set (chunks := filter _ _). assert (K : exists x more, chunks = (c :: x) :: more).
    { unfold chunks. clear -C. revert C. induction (split (c :: s)) as [|[|d k] l IH]; cbn; [discriminate|exact IH|]. intros Q. injection Q as -> _. eauto. }
    destruct K as (x & more & ->). rewrite (size_cons (c :: x)). cbn [length Nat.add wrap_chunks].
    rewrite one_line_eq. destruct (full_first c x more H) as (y & l & F). rewrite F. destruct (trimmed_first c y l H) as (l' & ->).
    match goal with |- bindr ?a _ = _ -> _ => destruct a as [ls|]; [|discriminate] end. cbn [bindr]. intros Q. injection Q as <-. cbn [concat app indent]. eauto.
  Qed.
  Lemma wrap_empty : Splits split -> (0 < width)%Z -> wrap split width first next [] = Ok [].
  Proof.
    intros S W. unfold wrap. destruct (width <=? 0)%Z eqn:E; [apply Z.leb_le in E; lia|].
    pose proof (S (munge [])) as C. change (munge []) with (@nil char) in *.
    assert (Z : filter (fun c : str => match c with [] => false | _ => true end) (split []) = []).
    { clear -C. induction (split []) as [|[|x k] l IH]; cbn in *; [reflexivity|now apply IH|discriminate]. }
    unfold str in *. rewrite Z. reflexivity.
  Qed.
End First.

Lemma lstrip_blanks n s : lstrip_p is_space (repeat 32%N n ++ s) = lstrip_p is_space s.
Proof. induction n as [|n IH]; [reflexivity|]. cbn. exact IH. Qed.
Lemma blanks_all n : forallb (N.eqb 32) (blanks n) = true.
Proof. induction n; [reflexivity|exact IHn]. Qed.
Lemma blanks_length n : length (blanks n) = n.
Proof. apply repeat_length. Qed.

Section Help.
  Variable split : str -> list str.
  Variable width : Z.
  Hypothesis Hsplit : Splits split.
  Hypothesis Hwidth : (0 < width)%Z.
  Lemma item_block i : Begins i -> exists s, print_item split width i = Ok s /\ Block width i s.
  Proof.
    destruct i as [g|o]; [intros _; eexists; split; [reflexivity|constructor]|]. intros [N B].
    destruct (wrap_filled split width (blanks 27) (blanks 27) (ho_help o) Hsplit Hwidth (ink_blanks _) (ink_blanks _) B) as (lines & E & F).
    cbn [print_item]. unfold fill. rewrite E. cbn [bindr]. rewrite (format_head o N). eexists. split; [reflexivity|]. constructor.
    exists lines. split; [exact F|]. rewrite Nat.ltb_antisym. destruct (Nat.leb (length (head_text o)) 25) eqn:L; cbn [negb]; [|reflexivity].
    apply Nat.leb_le in L. exists (blanks (25 - length (head_text o))). rewrite blanks_length, blanks_all. split; [lia|]. split; [reflexivity|].
    unfold padded. destruct (ho_help o) as [|c text].
    - rewrite (wrap_empty split width (blanks 27) (blanks 27) Hsplit Hwidth) in E. injection E as <-. cbn [join_with lstrip_p app]. now rewrite <- app_assoc.
    - destruct (wrap_start split width (blanks 27) (blanks 27) c text lines Hsplit B E) as (t & rest & ->).
      assert (J : lstrip_p is_space (join_with [NL] ((blanks 27 ++ c :: t) :: rest)) = join_with [NL] ((c :: t) :: rest)).
      { destruct rest as [|r rest]; [|rewrite !join2, <- app_assoc]; unfold blanks; cbn [join_with]; rewrite lstrip_blanks; cbn [lstrip_p app]; rewrite B; reflexivity. }
      exists (c :: t). split; [reflexivity|]. rewrite J, <- app_assoc. reflexivity.
  Qed.
  Lemma help_blocks l : Forall Begins l -> exists blocks, print_help split width l = Ok ($"usage: " ++ usage ++ [NL] ++ concat blocks) /\ Forall2 (Block width) l blocks.
  Proof.
    intros F. enough (X : exists blocks, print_items split width l = Ok (concat blocks) /\ Forall2 (Block width) l blocks).
    { destruct X as (bs & E & B). exists bs. unfold print_help. rewrite E. split; [reflexivity|exact B]. }
    induction F as [|i l H F IH]; [exists []; split; [reflexivity|constructor]|].
    destruct (item_block i H) as (s & E & B). destruct IH as (bs & E' & B'). exists (s :: bs). cbn [print_items]. rewrite E, E'. split; [reflexivity|now constructor].
  Qed.
End Help.
Lemma help_narrow split width l o : (width <= 0)%Z -> In (Entry o) l -> print_help split width l = Err ValueError.
Proof.
  intros W I. unfold print_help. enough (X : print_items split width l = Err ValueError) by now rewrite X.
  induction l as [|i l IH]; [destruct I|]. destruct i as [g|p].
  - destruct I as [I|I]; [discriminate|]. cbn [print_items print_item bindr]. now rewrite (IH I).
  - cbn [print_items print_item]. unfold fill. now rewrite wrap_narrow by exact W.
Qed.
