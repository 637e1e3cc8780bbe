(** Messages *)
From Coq Require Import List NArith ZArith Bool Lia.
From Verif Require Import Py WrapModel LogModel LogSpec WrapProofs.
Import ListNotations.

Lemma width_narrow columns terminal : (output_width columns terminal <= 0)%Z <->
  (exists n, columns = Some n /\ (1 <= n <= 2)%Z) \/
  ((forall n, columns = Some n -> (n <= 0)%Z) /\ exists n, terminal = Some n /\ (1 <= n <= 2)%Z).
Proof.
  unfold output_width. destruct columns as [n|].
  - destruct (0 <? n)%Z eqn:E; [apply Z.ltb_lt in E|apply Z.ltb_ge in E].
    + split.
      * intros H. left. exists n. split; [reflexivity|lia].
      * intros [(m & Q & H)|(H & _)]; [injection Q as <-; lia|]. specialize (H n eq_refl). lia.
    + destruct terminal as [m|].
      * destruct (0 <? m)%Z eqn:F; [apply Z.ltb_lt in F|apply Z.ltb_ge in F].
        -- split; [intros H; right; split; [intros k Q; injection Q as <-; lia|exists m; split; [reflexivity|lia]]|].
           intros [(k & Q & H)|(_ & k & Q & H)]; injection Q as <-; lia.
        -- split; [lia|]. intros [(k & Q & H)|(_ & k & Q & H)]; injection Q as <-; lia.
      * split; [lia|]. intros [(k & Q & H)|(_ & k & Q & H)]; [injection Q as <-; lia|discriminate].
  - destruct terminal as [m|].
    + destruct (0 <? m)%Z eqn:F; [apply Z.ltb_lt in F|apply Z.ltb_ge in F].
      * split; [intros H; right; split; [discriminate|exists m; split; [reflexivity|lia]]|].
        intros [(k & Q & H)|(_ & k & Q & H)]; [discriminate|injection Q as <-; lia].
      * split; [lia|]. intros [(k & Q & H)|(_ & k & Q & H)]; [discriminate|injection Q as <-; lia].
    + split; [lia|]. intros [(k & Q & H)|(_ & k & Q & H)]; discriminate.
Qed.

Section Log.
  Variable split : str -> list str.
  Variable width : Z.
  Notation perform := (perform split width).
  Notation print_message := (print_message split width).
  Notation log := (log split width).
  Notation logs := (logs split width).

  (** The text of a message without its tag *)
  Definition text_of (word m : str) : res str :=
    do s <- fill split width [] (blanks (length word + 2)) (word ++ $": " ++ m); Ok (s ++ [NL]).
  Definition tagged (l : logger) (t : option str) : logger :=
    match t with Some t => if str_in t (tags l) then l else Logger (t :: tags l) (categories l) | None => l end.
  Definition hidden (l : logger) (t : option str) : bool := match t with Some t => str_in t (tags l) | None => false end.
  Lemma print_eq l word m tag : print_message l word m tag = (tagged l tag, if hidden l tag then Ok [] else text_of word m).
  Proof. unfold LogModel.print_message, tagged, hidden. destruct tag as [t|]; [destruct (str_in t (tags l)); reflexivity|reflexivity]. Qed.
  (** The state after a call does not depend on the width *)
  Lemma perform_state l c : fst (fst (perform l c)) = tagged l (tag_of c).
  Proof.
    destruct c; cbn [LogModel.perform]; unfold tag_of; cbn [message_of]; rewrite ?print_eq; unfold printed; try (destruct (if hidden _ _ then _ else _); reflexivity).
    unfold tagged. destruct (categories l); [destruct (_ || _)|]; reflexivity.
  Qed.
  Lemma tagged_categories l t : categories (tagged l t) = categories l.
  Proof. unfold tagged. destruct t as [t|]; [destruct (str_in t (tags l))|]; reflexivity. Qed.
  Lemma tagged_in l t x : In x (tags (tagged l t)) <-> In x (tags l) \/ t = Some x.
  Proof.
    unfold tagged. destruct t as [t|]; [|split; [auto|intros [H|H]; [exact H|discriminate]]].
    destruct (str_in t (tags l)) eqn:E.
    - split; [auto|]. intros [H|H]; [exact H|]. injection H as ->. now apply str_in_iff.
    - cbn. split; [intros [->|H]; auto|intros [H|H]; [auto|injection H as ->; auto]].
  Qed.
  (** The state after some calls *)
  Definition after (l : logger) (cs : list call) : logger := fold_left (fun l c => tagged l (tag_of c)) cs l.
  Lemma after_categories cs : forall l, categories (after l cs) = categories l.
  Proof. induction cs as [|c cs IH]; intros l; [reflexivity|]. cbn [after fold_left]. fold (after (tagged l (tag_of c)) cs). now rewrite IH, tagged_categories. Qed.
  Lemma after_in cs : forall l x, In x (tags (after l cs)) <-> In x (tags l) \/ exists c, In c cs /\ tag_of c = Some x.
  Proof.
    induction cs as [|c cs IH]; intros l x; [split; [auto|intros [H|(c & [] & _)]; exact H]|].
    cbn [after fold_left]. fold (after (tagged l (tag_of c)) cs). rewrite IH, tagged_in. split.
    - intros [[H|H]|(c' & I & H)]; [now left| |]; right; [exists c|exists c']; split; auto; [now left|now right].
    - intros [H|(c' & [<-|I] & H)]; [auto|auto|]. right. eauto.
  Qed.
  Lemma hidden_spec l cs c : hidden (after l cs) (tag_of c) = true <->
    exists t, tag_of c = Some t /\ (In t (tags l) \/ exists c', In c' cs /\ tag_of c' = Some t).
  Proof.
    unfold hidden. destruct (tag_of c) as [t|].
    - rewrite str_in_iff, after_in. split; [intros H; eauto|]. intros (t' & Q & H). injection Q as <-. exact H.
    - split; [discriminate|]. intros (t & Q & _). discriminate.
  Qed.
  Lemma shown_hidden l cs c : (forall t, tag_of c = Some t -> ~ In t (tags l)) -> (Shown cs c <-> hidden (after l cs) (tag_of c) = false).
  Proof.
    intros H. rewrite <- not_true_iff_false, hidden_spec. unfold Shown. destruct (tag_of c) as [t|].
    - split.
      + intros S (t' & Q & [I|(c' & I & K)]); injection Q as <-; [exact (H t eq_refl I)|exact (S c' I K)].
      + intros N c' I K. apply N. eauto 6.
    - split; [intros _ (t & Q & _); discriminate|auto].
  Qed.

  Hypothesis Hsplit : Splits split.
  Hypothesis Hwidth : (0 < width)%Z.
  Lemma text_ok word m : match word with [] => False | c :: _ => is_space c = false end ->
    exists lines, Filled width [] (repeat 32%N (length word + 2)) (word ++ $": " ++ m) lines /\ text_of word m = Ok (join_with [NL] lines ++ [NL]).
  Proof.
    intros H. destruct (wrap_filled split width [] (blanks (length word + 2)) (word ++ $": " ++ m) Hsplit Hwidth eq_refl (ink_blanks _)) as (lines & E & F).
    { destruct word; [destruct H|exact H]. }
    exists lines. split; [exact F|]. unfold text_of, fill. rewrite E. reflexivity.
  Qed.
  (** What a call writes, and how it ends *)
  Lemma perform_message l c word m tag : message_of c = Some (word, m, tag) ->
    exists s, perform l c = (tagged l tag, if hidden l tag then trailer c else s, ending (exit_of c)) /\ Written width c s.
  Proof.
    intros M. unfold Written. rewrite M.
    destruct c; cbn [message_of] in M; try discriminate M; injection M as <- <- <-; cbn [LogModel.perform trailer exit_of]; rewrite print_eq;
      match goal with |- context[text_of ?w ?x] => destruct (text_ok w x eq_refl) as (lines & F & E); rewrite E end;
      (eexists; split; [|exists lines; split; [exact F|reflexivity]]);
      unfold printed, hidden; rewrite ?app_nil_r, <- ?app_assoc; try reflexivity.
    all: match goal with |- (match (if match ?x with _ => _ end then _ else _) with _ => _ end) = _ => destruct x as [t|] end; [destruct (str_in t (tags l))|]; cbn [app]; rewrite ?app_nil_r; reflexivity.
  Qed.
  Lemma perform_effect l c : categories l <> None -> snd (perform l c) = ending (exit_of c).
  Proof.
    intros K. destruct (message_of c) as [[[word m] tag]|] eqn:M.
    - destruct (perform_message l c word m tag M) as (s & -> & _). reflexivity.
    - destruct c; try discriminate M. cbn [LogModel.perform]. destruct (categories l); [destruct (_ || _); reflexivity|contradiction].
  Qed.

  Lemma perform_fine cats l before c : categories l = Some cats -> (forall t, tag_of c = Some t -> ~ In t (tags l)) ->
    Fine width cats before c (snd (fst (perform (after l before) c))).
  Proof.
    intros C N. assert (C' := after_categories before l). rewrite C in C'. pose proof (shown_hidden l before c N) as S.
    destruct (message_of c) as [[[word m] tag]|] eqn:M.
    - destruct (perform_message (after l before) c word m tag M) as (s & E & W).
      assert (T : tag_of c = tag) by (unfold tag_of; now rewrite M). rewrite T in S. rewrite E. cbn [fst snd].
      assert (X : (Shown before c -> Written width c (if hidden (after l before) tag then trailer c else s)) /\
                  (~ Shown before c -> (if hidden (after l before) tag then trailer c else s) = [])).
      { split; [intros H; apply S in H; now rewrite H|]. intros H. destruct (hidden (after l before) tag) eqn:Hh; [|exfalso; apply H; now apply S].
        destruct c; try reflexivity. exfalso. apply H. exact I. }
      destruct c; try exact X. discriminate M.
    - destruct c; try discriminate M. unfold Fine, Chosen. cbn [LogModel.perform]. rewrite C'. 
      assert (B : str_in ($"all") cats || str_in category cats = true <-> In ($"all") cats \/ In category cats) by (rewrite orb_true_iff, !str_in_iff; reflexivity).
      destruct (_ || _); cbn [fst snd]; split; intros H; [reflexivity|exfalso; apply H; now apply B|apply B in H; discriminate|reflexivity].
  Qed.

  (** ** One process *)
  Lemma log_exit : forall cs l, categories l <> None ->
    (Forall (fun c => exit_of c = None) cs -> snd (log l cs) = Goes_on /\ length (fst (log l cs)) = length cs) /\
    (forall before c n rest, cs = before ++ c :: rest -> Forall (fun c => exit_of c = None) before -> exit_of c = Some n ->
      snd (log l cs) = Exits n /\ length (fst (log l cs)) = S (length before)).
  Proof.
    induction cs as [|c cs IH]; intros l K.
    - split; [intros _; split; reflexivity|]. intros [|] ? ? ? H; discriminate.
    - pose proof (perform_effect l c K) as E. pose proof (perform_state l c) as St. cbn [LogModel.log].
      destruct (perform l c) as [[l' s] e]. cbn [fst snd] in E, St. subst e l'.
      assert (K' : categories (tagged l (tag_of c)) <> None) by (now rewrite tagged_categories).
      specialize (IH _ K'). destruct IH as [IH1 IH2]. split.
      + intros F. inversion F as [|? ? F1 F2]; subst. rewrite F1. cbn [ending]. destruct (IH1 F2) as [I1 I2].
        destruct (log (tagged l (tag_of c)) cs) as [ss e]. cbn [fst snd length] in *. auto.
      + intros [|b before] c' n rest Q F X.
        * injection Q as <- <-. rewrite X. cbn. auto.
        * injection Q as <- Q. apply Forall_cons_iff in F as [F1 F2]. rewrite F1. cbn [ending]. destruct (IH2 before c' n rest Q F2 X) as [I1 I2].
          destruct (log (tagged l (tag_of c)) cs) as [ss e]. cbn [fst snd length] in *. auto.
  Qed.
  Lemma log_nth : forall cs l before c rest s, cs = before ++ c :: rest -> categories l <> None ->
    nth_error (fst (log l cs)) (length before) = Some s -> s = snd (fst (perform (after l before) c)).
  Proof.
    induction cs as [|c cs IH]; intros l [|b before] c' rest s Q K H; try discriminate Q.
    - injection Q as <- <-. cbn [LogModel.log] in H. cbn [after fold_left]. destruct (perform l c) as [[l' s'] e]. cbn [fst snd].
      destruct e; [destruct (log l' cs)|..]; cbn [fst length nth_error] in H; now injection H.
    - injection Q as <- Q. cbn [LogModel.log] in H. pose proof (perform_state l c) as St. destruct (perform l c) as [[l' s'] e]. cbn [fst] in St. subst l'.
      cbn [after fold_left]. fold (after (tagged l (tag_of c)) before).
      destruct e; [|cbn [fst length nth_error] in H; destruct (length before); discriminate H..].
      apply (IH _ before c' rest); [exact Q|now rewrite tagged_categories|]. destruct (log (tagged l (tag_of c)) cs) as [ss e]. exact H.
  Qed.
  Lemma log_messages cats cs before c rest s : cs = before ++ c :: rest ->
    nth_error (fst (log (Logger [] (Some cats)) cs)) (length before) = Some s -> Fine width cats before c s.
  Proof.
    intros Q H. rewrite (log_nth cs (Logger [] (Some cats)) before c rest s Q ltac:(discriminate) H).
    apply perform_fine; [reflexivity|]. intros t _ [].
  Qed.

  (** ** Several processes *)
  Lemma logs_nth : forall cs ls before p c rest s, cs = before ++ (p, c) :: rest ->
    nth_error (logs ls cs) (length before) = Some s -> s = snd (fst (perform (after (ls p) (calls_of p before)) c)).
  Proof.
    induction cs as [|[q d] cs IH]; intros ls [|[b b'] before] p c rest s Q H; try discriminate Q.
    - injection Q as <- <- <-. cbn [LogModel.logs] in H. cbn. destruct (perform (ls q) d) as [[l' s'] e]. cbn in H. now injection H.
    - injection Q as <- <- Q. cbn [LogModel.logs] in H. pose proof (perform_state (ls q) d) as St. destruct (perform (ls q) d) as [[l' s'] e]. cbn [fst] in St. subst l'.
      cbn [length nth_error] in H. rewrite (IH _ before p c rest s Q H). unfold calls_of. cbn [filter fst]. rewrite (Nat.eqb_sym q p).
      destruct (Nat.eqb p q) eqn:E; [|reflexivity]. apply Nat.eqb_eq in E. subst q. reflexivity.
  Qed.
  Lemma logs_messages ls cats cs before p c rest s : cs = before ++ (p, c) :: rest -> categories (ls p) = Some cats ->
    (forall t, tag_of c = Some t -> ~ In t (tags (ls p))) ->
    nth_error (logs ls cs) (length before) = Some s -> Fine width cats (calls_of p before) c s.
  Proof. intros Q C N H. rewrite (logs_nth cs ls before p c rest s Q H). now apply perform_fine. Qed.
End Log.
(** ** A screen that is too narrow *)
Lemma narrow split width l c word m : (width <= 0)%Z -> message_of c = Some (word, m, None) -> snd (perform split width l c) = Raises ValueError.
Proof.
  intros W M. destruct c; cbn [message_of] in M; try discriminate M; inversion M; subst;
    cbn [perform print_message]; unfold fill; rewrite wrap_narrow by exact W; reflexivity.
Qed.
(** Two processes that have nothing in common show the same tag. *)
Lemma twice : let c := Warning ($"x") (Some ($"t")) in
  logs (fun s => [s]) 80 (fun _ => Logger [] (Some [])) [(1%nat, c); (2%nat, c); (1%nat, c)] = [$"WARNING: x" ++ [NL]; $"WARNING: x" ++ [NL]; []].
Proof. vm_compute. reflexivity. Qed.
(** Words and the blanks between them *)
Fixpoint words_and_blanks (s : str) : list str :=
  match s with
  | [] => []
  | c :: s =>
      match words_and_blanks s with
      | (d :: w) :: ws => if Bool.eqb (is_space c) (is_space d) then (c :: d :: w) :: ws else [c] :: (d :: w) :: ws
      | ws => [c] :: ws
      end
  end.
Lemma words_and_blanks_splits : Splits words_and_blanks.
Proof.
  intros s. induction s as [|c s IH]; [reflexivity|]. cbn [words_and_blanks].
  destruct (words_and_blanks s) as [|[|d w] ws]; [..|destruct (Bool.eqb _ _)]; cbn in *; now rewrite IH.
Qed.
