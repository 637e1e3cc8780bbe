From Coq Require Import List NArith ZArith Bool Lia.
From Verif Require Import Py OsPath PathModel PathSpec PathProofs EntryModel EntrySpec EntryProofs ArgumentsSpec DirectoryProofs ReferenceProofs LinkModel LinkSpec.
Import ListNotations.

Lemma steps_app a b : steps (a ++ SLASH :: b) = steps a ++ steps b.
Proof. unfold steps. rewrite split_on_app_any. apply filter_app. Qed.
Lemma join_way dir link : link <> [] -> absolute link = false -> same_way (join dir link) (meant dir link).
Proof.
  intros L A. unfold meant. rewrite A. destruct dir as [|x d]; [destruct link; [contradiction|]; split; reflexivity|].
  destruct link as [|y l]; [contradiction|]. unfold join. destruct (str_eqb (x :: d) [SLASH]) eqn:E.
  - apply str_eqb_eq in E. injection E as -> ->. split; [reflexivity|].
    change ([SLASH] ++ [SLASH] ++ y :: l) with ([SLASH] ++ SLASH :: y :: l). rewrite steps_app.
    change ([SLASH] ++ y :: l) with ([] ++ SLASH :: y :: l). rewrite steps_app. reflexivity.
  - split; [reflexivity|]. reflexivity.
Qed.
Lemma join_absolute dir link : dir <> [] -> absolute link = true ->
  steps (join dir link) = steps dir ++ steps link /\ absolute (join dir link) = absolute dir.
Proof.
  intros D A. destruct dir as [|x d]; [contradiction|]. destruct link as [|y l]; [discriminate|]. unfold join.
  destruct (str_eqb (x :: d) [SLASH]) eqn:E.
  - apply str_eqb_eq in E. injection E as -> ->. split; [|reflexivity].
    change ([SLASH] ++ y :: l) with ([] ++ SLASH :: y :: l). rewrite steps_app. reflexivity.
  - split; [apply steps_app|reflexivity].
Qed.

Section Links.
  Variable readlink : str -> option str.
  Variable realpath : str -> str.
  Variable exists_ : str -> bool.
  Notation link_attributes := (link_attributes readlink realpath exists_).

  Lemma entry_dir sd rel st e d n : mk_entry sd rel st = Ok e -> inside d n (e_path e) -> name_ok n -> e_dir e = d.
  Proof.
    intros M I N. assert (S : split (e_path e) = (e_dir e, e_name e)).
    { revert M. unfold mk_entry. destruct (split _) as [d' n'] eqn:E. destruct n'; [discriminate|]. intros H. injection H as <-. exact E. }
    rewrite (split_inside _ _ _ I N) in S. congruence.
  Qed.
  Lemma link_target sd rel st e d n link : mk_entry sd rel st = Ok e -> inside d n (e_path e) -> name_ok n ->
    S_ISLNK (st_mode st) = true -> readlink (e_path e) = Some link -> link <> [] ->
    (forall p q, same_way p q -> realpath p = realpath q) ->
    absolute link = false \/ d = [] \/ d = [SLASH] ->
    exists t, link_attributes e = Ok (Links (Some link) (Some t) (negb (exists_ t))) /\ t = realpath (meant d link).
  Proof.
    intros M I N L Rd Ne W C. assert (St : e_status e = st).
    { revert M. unfold mk_entry. destruct (split _) as [d' n'] eqn:E. destruct n'; [discriminate|]. intros H. now injection H as <-. }
    eexists. unfold LinkModel.link_attributes. rewrite St, L, Rd. split; [reflexivity|].
    rewrite (entry_dir _ _ _ _ _ _ M I N). apply W.
    destruct (absolute link) eqn:A; [|now apply join_way].
    destruct C as [C|[->| ->]]; [discriminate| |]; unfold meant; rewrite A.
    - split; reflexivity.
    - destruct (join_absolute [SLASH] link) as [S B]; [discriminate|exact A|]. split; [now rewrite B, A|now rewrite S].
  Qed.
  Lemma no_link e : S_ISLNK (st_mode (e_status e)) = false -> link_attributes e = Ok (Links None None false).
  Proof. intros H. unfold LinkModel.link_attributes. now rewrite H. Qed.
End Links.

Lemma steps_names names : Forall plain names -> Forall (fun c => ~ In 47%N c) names ->
  go [] (split_on 47%N (($"/") ++ join_with ($"/") names)) = names.
Proof.
  intros P N. change (($"/") ++ join_with ($"/") names) with ([] ++ 47%N :: join_with ($"/") names).
  rewrite split_on_app_any, go_app. apply (go_join_names names []). now split.
Qed.
Lemma absolute_wrong cwd readlink exists_ sd rel st e d n names : absolute cwd = true ->
  mk_entry sd rel st = Ok e -> inside d n (e_path e) -> name_ok n -> S_ISLNK (st_mode st) = true ->
  readlink (e_path e) = Some (($"/") ++ join_with ($"/") names) -> Forall plain names -> Forall (fun c => ~ In 47%N c) names ->
  d <> [] -> place cwd d <> [] ->
  exists t, link_attributes readlink (abspath cwd) exists_ e =
      Ok (Links (Some (($"/") ++ join_with ($"/") names)) (Some t) (negb (exists_ t))) /\
    place cwd t = place cwd d ++ names /\ place cwd t <> place cwd (meant d (($"/") ++ join_with ($"/") names)).
Proof.
  intros A M I N L Rd P S D Pd. assert (St : e_status e = st).
  { revert M. unfold mk_entry. destruct (split _) as [d' n'] eqn:E. destruct n'; [discriminate|]. intros H. now injection H as <-. }
  eexists. unfold link_attributes. rewrite St, L, Rd. split; [reflexivity|].
  rewrite (entry_dir _ _ _ _ _ _ M I N). rewrite place_abspath by exact A. rewrite place_join by exact D.
  assert (G : forall at_, go at_ (split_on 47%N (($"/") ++ join_with ($"/") names)) = at_ ++ names).
  { intros at_. change (($"/") ++ join_with ($"/") names) with ([] ++ 47%N :: join_with ($"/") names).
    rewrite split_on_app_any, go_app. apply (go_join_names names). now split. }
  rewrite G. split; [reflexivity|]. unfold meant.
  replace (absolute (($"/") ++ join_with ($"/") names)) with true by reflexivity.
  unfold place at 2. replace (absolute (($"/") ++ join_with ($"/") names)) with true by reflexivity.
  rewrite G. cbn [app]. intros X. apply (f_equal (@length str)) in X. rewrite app_length in X.
  destruct (place cwd d); [contradiction|]. cbn [length] in X. lia.
Qed.
