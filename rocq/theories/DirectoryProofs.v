(** Directory arguments. *)
From Coq Require Import List NArith ZArith Bool Lia Permutation.
From Verif Require Import Py PathModel OsPath StrOrder SortLib ArgumentsModel ArgumentsSpec.
Import ListNotations.

Lemma str_eqb_spec (a b : str) : reflect (a = b) (str_eqb a b).
Proof. destruct (str_eqb a b) eqn:E; constructor; [now apply str_eqb_eq|now apply str_eqb_neq]. Qed.

(** * Detection *)
Section Detection.
  Variable isdir : str -> bool.
  Notation is_directory := (is_directory isdir).
  Notation front_loop := (front_loop isdir).
  Notation back_loop := (back_loop isdir).

  Lemma remove_first_splits x l : In x l -> Splits l (remove_first x l) [x].
  Proof.
    induction l as [|y l IH]; intros H; [destruct H|]. cbn [remove_first].
    destruct (str_eqb_spec y x) as [->|N].
    - apply splits_take. clear. induction l; constructor; assumption.
    - apply splits_keep. apply IH. destruct H; [contradiction|assumption].
  Qed.
  Lemma splits_refl {A} (l : list A) : Splits l l [].
  Proof. induction l; constructor; assumption. Qed.
  (** Taking out twice *)
  Lemma splits_trans {A} (l k t : list A) : Splits l k t -> forall k' t', Splits k k' t' ->
    exists t'', Splits l k' t'' /\ Permutation t'' (t ++ t').
  Proof.
    induction 1 as [|x l k t H IH|x l k t H IH]; intros k' t' H'.
    - inversion H'; subst. exists []. split; constructor.
    - inversion H' as [|? ? k2 ? H2|? ? ? t2 H2]; subst.
      + destruct (IH _ _ H2) as (t'' & S & P). exists t''. split; [now constructor|assumption].
      + destruct (IH _ _ H2) as (t'' & S & P). exists (x :: t''). split; [now constructor|].
        rewrite P. apply Permutation_middle.
    - destruct (IH _ _ H') as (t'' & S & P). exists (x :: t''). split; [now constructor|].
      cbn. now constructor.
  Qed.
  Lemma front_head copy tests dirs : copy = tests ->
    exists lead mid, tests = lead ++ mid /\ Forall (fun t => is_directory t = true) lead /\
      match mid with [] => True | t :: _ => is_directory t = false end /\
      front_loop copy tests dirs = (mid, dirs ++ map normpath lead).
  Proof.
    intros ->. revert dirs. induction tests as [|t tests IH]; intros dirs; cbn [ArgumentsModel.front_loop].
    - exists [], []. split; [reflexivity|]. split; [apply Forall_nil|]. split; [exact I|].
      cbn [map]. now rewrite app_nil_r.
    - destruct (is_directory t) eqn:E.
      + cbn [remove_first]. rewrite str_eqb_refl.
        destruct (IH (dirs ++ [normpath t])) as (lead & mid & -> & F & M & ->).
        exists (t :: lead), mid. repeat split; [now constructor|assumption|].
        cbn [map]. now rewrite <- app_assoc.
      + exists [], (t :: tests). split; [reflexivity|]. split; [apply Forall_nil|].
        split; [assumption|]. cbn [map]. now rewrite app_nil_r.
  Qed.
  Lemma back_splits i tests dirs :
    exists taken dirs', Splits tests (fst (back_loop i tests dirs)) taken /\
      Forall (fun t => is_directory t = true) taken /\
      snd (back_loop i tests dirs) = dirs ++ dirs' /\ Permutation dirs' (map normpath taken).
  Proof.
    revert tests dirs. induction i as [|i IH]; intros tests dirs; cbn [ArgumentsModel.back_loop].
    - exists [], []. cbn. rewrite app_nil_r. repeat split; [apply splits_refl|constructor|constructor].
    - destruct (nth_error tests i) as [t|] eqn:En;
        [destruct (is_directory t) eqn:E|];
        try (exists [], []; cbn; rewrite app_nil_r; repeat split; [apply splits_refl|constructor|constructor]).
      destruct (IH (remove_first t tests) (dirs ++ [normpath t])) as (taken & dirs' & S & F & Ed & P).
      apply nth_error_In in En. pose proof (remove_first_splits _ _ En) as S1.
      destruct (splits_trans _ _ _ S1 _ _ S) as (t'' & S2 & P2).
      exists t'', (normpath t :: dirs'). repeat split.
      + exact S2.
      + rewrite P2. cbn. now constructor.
      + rewrite Ed. now rewrite <- app_assoc.
      + rewrite P2. cbn [app map]. now constructor.
  Qed.
  (** Nothing follows when something was taken from the front. *)
  Lemma back_short i tests dirs : (length tests < i)%nat -> back_loop i tests dirs = (tests, dirs).
  Proof.
    destruct i as [|i]; [lia|]. intros H. cbn [ArgumentsModel.back_loop].
    destruct (nth_error tests i) eqn:E; [|reflexivity].
    assert (i < length tests)%nat by (apply nth_error_Some; congruence). lia.
  Qed.
  Lemma remove_first_app x a b : ~ In x a -> In x b -> remove_first x (a ++ b) = a ++ remove_first x b.
  Proof.
    induction a as [|y a IH]; intros H1 H2; [reflexivity|]. cbn [app remove_first].
    destruct (str_eqb_spec y x) as [->|N]; [exfalso; apply H1; now left|].
    rewrite IH; auto. intros H. apply H1. now right.
  Qed.
  Lemma back_tail mid tail dirs :
    match rev mid with [] => True | t :: _ => is_directory t = false end ->
    Forall (fun t => is_directory t = true) tail -> NoDup tail -> (forall t, In t tail -> ~ In t mid) ->
    back_loop (length (mid ++ tail)) (mid ++ tail) dirs = (mid, dirs ++ map normpath (rev tail)).
  Proof.
    revert dirs. induction tail as [|t tail IH] using rev_ind; intros dirs M F D N.
    - rewrite app_nil_r. cbn [rev map]. rewrite app_nil_r.
      destruct (rev mid) as [|t l] eqn:E.
      + apply (f_equal (@rev _)) in E. rewrite rev_involutive in E. subst. reflexivity.
      + apply (f_equal (@rev _)) in E. rewrite rev_involutive in E. subst. cbn [rev] in *.
        rewrite app_length. cbn [length]. rewrite Nat.add_1_r. cbn [ArgumentsModel.back_loop].
        rewrite nth_error_app2 by lia. rewrite Nat.sub_diag. cbn [nth_error]. now rewrite M.
    - rewrite app_assoc, app_length. cbn [length]. rewrite Nat.add_1_r. cbn [ArgumentsModel.back_loop].
      rewrite nth_error_app2 by lia. rewrite Nat.sub_diag. cbn [nth_error].
      apply Forall_app in F as [F Ft]. inversion Ft; subst. rewrite H1.
      rewrite remove_first_app.
      + cbn [remove_first]. rewrite str_eqb_refl. rewrite app_nil_r.
        apply NoDup_remove in D as [D _]. rewrite app_nil_r in D.
        rewrite IH; auto.
        * rewrite rev_app_distr. cbn [rev app map]. now rewrite <- app_assoc.
        * intros x Hx. apply N. apply in_app_iff. now left.
      + intros Hin. apply in_app_iff in Hin as [Hin|Hin].
        * revert Hin. apply N. apply in_app_iff. right. now left.
        * apply NoDup_remove_2 in D. rewrite app_nil_r in D. contradiction.
      + now left.
  Qed.
End Detection.

(** What process_directories does besides the check *)
Definition detect (isdir : str -> bool) (a : pargs) : pargs :=
  let a := match a_directories a with
           | [] =>
               let tests := a_tests a in
               let (tests', dirs) := front_loop isdir tests tests [] in
               let (tests'', dirs) := back_loop isdir (length tests) tests' dirs in
               set_directories (set_tests a tests'') dirs
           | _ => a
           end in
  match a_directories a with [] => set_directories a [$"."] | _ => a end.
Lemma process_detect isdir cwd a a' : process_directories isdir cwd a = Ok a' -> a' = detect isdir a.
Proof.
  unfold process_directories. fold (detect isdir a).
  destruct (existsb _ _); [discriminate|]. intros H. now injection H.
Qed.
Lemma detect_given isdir a : a_directories a <> [] -> detect isdir a = a.
Proof. unfold detect. destruct (a_directories a) eqn:E; [easy|]. now rewrite E. Qed.
Lemma detect_split isdir a : a_directories a = [] ->
  exists taken dirs, Splits (a_tests a) (a_tests (detect isdir a)) taken /\
    Forall (fun t => is_directory isdir t = true) taken /\ Permutation dirs (map normpath taken) /\
    a_directories (detect isdir a) = match dirs with [] => [$"."] | _ => dirs end.
Proof.
  intros H. unfold detect. rewrite H. cbv zeta.
  destruct (front_head isdir (a_tests a) (a_tests a) [] eq_refl) as (lead & mid & Et & F & _ & ->).
  cbn [app].
  destruct (back_splits isdir (length (a_tests a)) mid (map normpath lead)) as (taken & dirs' & S & F' & Ed & P).
  destruct (back_loop isdir (length (a_tests a)) mid (map normpath lead)) as [tests'' dirs]. cbn [fst snd] in *.
  assert (S1 : Splits (a_tests a) mid lead).
  { rewrite Et. clear. induction lead; cbn; [apply splits_refl|now constructor]. }
  destruct (splits_trans _ _ _ S1 _ _ S) as (t'' & S2 & P2).
  exists t'', dirs. repeat split.
  - destruct dirs; exact S2.
  - rewrite P2. apply Forall_app. now split.
  - rewrite P2, map_app, Ed. now apply Permutation_app_head.
  - cbn [a_directories set_directories]. now destruct dirs.
Qed.
Lemma detect_front isdir a lead mid : a_directories a = [] -> a_tests a = lead ++ mid -> lead <> [] ->
  Forall (fun t => is_directory isdir t = true) lead ->
  match mid with [] => True | t :: _ => is_directory isdir t = false end ->
  a_tests (detect isdir a) = mid /\ a_directories (detect isdir a) = map normpath lead.
Proof.
  intros H Et Hl F M. unfold detect. rewrite H. cbv zeta.
  destruct (front_head isdir (a_tests a) (a_tests a) [] eq_refl) as (lead' & mid' & Et' & F' & M' & ->).
  assert (E : lead' = lead /\ mid' = mid).
  { rewrite Et in Et'. clear H Et Hl. revert lead' Et' F'. induction lead as [|t lead IH]; intros [|t' lead'] E F'; cbn in E.
    - split; congruence.
    - subst mid. inversion F'; subst. congruence.
    - subst mid'. inversion F; subst. congruence.
    - injection E as <- E. inversion F; inversion F'; subst. destruct (IH H2 lead' E H6) as [-> ->]. now split. }
  destruct E as [-> ->]. cbn [app]. rewrite back_short.
  - cbn. destruct (map normpath lead) eqn:Em; [destruct lead; [easy|discriminate]|]. split; reflexivity.
  - rewrite Et, app_length. destruct lead; [easy|]. cbn. lia.
Qed.
Lemma detect_back isdir a mid tail : a_directories a = [] -> a_tests a = mid ++ tail -> tail <> [] ->
  match mid with [] => False | t :: _ => is_directory isdir t = false end ->
  match rev mid with [] => False | t :: _ => is_directory isdir t = false end ->
  Forall (fun t => is_directory isdir t = true) tail -> NoDup tail -> (forall t, In t tail -> ~ In t mid) ->
  a_tests (detect isdir a) = mid /\ a_directories (detect isdir a) = map normpath (rev tail).
Proof.
  intros H Et Hl M1 M2 F D N. unfold detect. rewrite H. cbv zeta. rewrite Et.
  destruct mid as [|t mid]; [contradiction|].
  replace (front_loop isdir ((t :: mid) ++ tail) ((t :: mid) ++ tail) []) with ((t :: mid) ++ tail, @nil str)
    by (cbn [app front_loop]; now rewrite M1).
  rewrite (back_tail isdir (t :: mid) tail []); auto.
  - cbn [app set_directories set_tests a_directories a_tests].
    destruct (map normpath (rev tail)) eqn:Em; [|split; reflexivity].
    apply map_eq_nil in Em. apply (f_equal (@rev _)) in Em. rewrite rev_involutive in Em. now subst.
  - destruct (rev (t :: mid)); [exact I|exact M2].
Qed.
Lemma detect_none isdir a : a_directories a = [] ->
  match a_tests a with [] => True | t :: _ => is_directory isdir t = false end ->
  match rev (a_tests a) with [] => True | t :: _ => is_directory isdir t = false end ->
  a_tests (detect isdir a) = a_tests a /\ a_directories (detect isdir a) = [$"."].
Proof.
  intros H M1 M2. unfold detect. rewrite H. cbv zeta.
  replace (front_loop isdir (a_tests a) (a_tests a) []) with (a_tests a, @nil str)
    by (destruct (a_tests a); [reflexivity|]; cbn [front_loop]; now rewrite M1).
  pose proof (back_tail isdir (a_tests a) [] [] M2 (Forall_nil _) (NoDup_nil _) (fun _ x _ => x)) as B.
  rewrite app_nil_r in B. rewrite B. split; reflexivity.
Qed.

(** * Overlapping *)
Lemma exists_sorted {A} (f : A -> bool) leb l : existsb f (sort_reverse leb l) = existsb f l.
Proof.
  apply eq_true_iff_eq. rewrite !existsb_exists.
  split; intros (x & H & E); exists x; split; auto; revert H; apply Permutation_in;
    [symmetry|]; apply sort_reverse_perm.
Qed.

Definition plain (c : str) : Prop := c <> [] /\ c <> $"." /\ c <> $"..".
Lemma go_app at_ a b : go at_ (a ++ b) = go (go at_ a) b.
Proof.
  revert at_; induction a as [|c a IH]; intros at_; [reflexivity|]. cbn [app go].
  destruct (str_eqb c [] || _); [apply IH|]. destruct (str_eqb c _); apply IH.
Qed.
(** posixpath's loop computes the same, for absolute paths *)
Lemma norm_go comps acc : Forall plain acc ->
  rev (fold_left (norm_step true) comps acc) = go (rev acc) comps /\
  Forall plain (fold_left (norm_step true) comps acc).
Proof.
  revert acc; induction comps as [|c comps IH]; intros acc F; cbn [fold_left go]; [split; [reflexivity|assumption]|].
  unfold norm_step at 2 4. destruct (str_eqb c [] || str_eqb c ($".")) eqn:E1; [now apply IH|].
  apply orb_false_iff in E1 as [E0 E1]. apply str_eqb_neq in E0, E1.
  destruct (str_eqb_spec c ($"..")) as [->|E2]; cbn [negb].
  - destruct acc as [|x acc]; [now apply (IH [])|]. inversion F as [|? ? Px Fx]; subst.
    destruct (str_eqb_spec x ($"..")) as [->|N]; [now destruct Px as (_ & _ & ?)|].
    cbn [rev]. rewrite removelast_last. now apply IH.
  - destruct (IH (c :: acc)) as [I1 I2]; [constructor; [|assumption]; now repeat split|].
    cbn [rev] in I1. split; [exact I1|exact I2].
Qed.
Lemma go_plain comps at_ : Forall plain at_ -> Forall plain (go at_ comps).
Proof.
  intros F. assert (F' : Forall plain (rev at_)) by (now apply Forall_rev).
  destruct (norm_go comps (rev at_) F') as [E P]. rewrite rev_involutive in E. rewrite <- E. now apply Forall_rev.
Qed.
Lemma go_noslash comps at_ : Forall (fun c => ~ In 47%N c) comps -> Forall (fun c => ~ In 47%N c) at_ ->
  Forall (fun c => ~ In 47%N c) (go at_ comps).
Proof.
  revert at_; induction comps as [|c comps IH]; intros at_ F G; cbn [go]; [assumption|].
  inversion F; subst. destruct (str_eqb c [] || _); [now apply IH|].
  destruct (str_eqb c ($"..")); apply IH; auto.
  - clear -G. induction at_ as [|x at_ IHa]; [constructor|]. cbn [removelast]. destruct at_; [constructor|].
    inversion G; subst. constructor; auto.
  - apply Forall_app. split; [assumption|]. now constructor.
Qed.
Lemma split_on_app_any c a b : split_on c (a ++ c :: b) = split_on c a ++ split_on c b.
Proof.
  induction a as [|x a IH]; cbn [app split_on].
  - now rewrite N.eqb_refl.
  - destruct (N.eqb x c); [now rewrite IH|]. rewrite IH.
    pose proof (split_on_nonnil c a). destruct (split_on c a); [easy|reflexivity].
Qed.
Lemma absolute_starts path : absolute path = starts_with ($"/") path.
Proof. destruct path as [|c path]; [reflexivity|]. cbn. rewrite N.eqb_sym. now rewrite andb_true_r. Qed.
Lemma go_join cwd path : absolute cwd = true -> absolute path = false ->
  go [] (split_on 47%N (os_join cwd path)) = go (go [] (split_on 47%N cwd)) (split_on 47%N path) /\
  absolute (os_join cwd path) = true.
Proof.
  intros A B. unfold os_join. rewrite absolute_starts in B. rewrite B.
  destruct cwd as [|c cwd]; [discriminate|].
  destruct (ends_with ($"/") (c :: cwd)) eqn:E.
  - apply ends_with_iff in E as [t E]. change ($"/") with [47%N] in E. rewrite E, <- app_assoc. cbn [app].
    rewrite !split_on_app_any, !go_app. split; [reflexivity|].
    destruct t; [reflexivity|]. injection E as -> E. exact A.
  - cbn [app]. split; [|exact A].
    change (c :: cwd ++ $"/" ++ path) with ((c :: cwd) ++ 47%N :: path). now rewrite split_on_app_any, go_app.
Qed.
Definition whole (cwd path : str) : str := if starts_with ($"/") path then path else os_join cwd path.
Lemma whole_go cwd path : absolute cwd = true ->
  absolute (whole cwd path) = true /\ go [] (split_on 47%N (whole cwd path)) = place cwd path.
Proof.
  intros A. unfold whole, place. rewrite <- absolute_starts. destruct (absolute path) eqn:E; [split; auto|].
  destruct (go_join cwd path A E). split; assumption.
Qed.
Lemma place_plain cwd path : Forall plain (place cwd path) /\ Forall (fun c => ~ In 47%N c) (place cwd path).
Proof.
  assert (N : forall s, Forall (fun c => ~ In 47%N c) (split_on 47%N s))
    by (intros s; apply Forall_forall; intros c; apply split_on_parts).
  unfold place. destruct (absolute path); split; repeat first [apply go_plain|apply go_noslash]; auto; constructor.
Qed.
Lemma join_comps (l : list str) : Forall plain l -> Forall (fun c => ~ In 47%N c) l ->
  path_comps (join_with ($"/") l) = l.
Proof.
  intros P N. unfold path_comps.
  assert (F : filter (fun c => negb (str_eqb c [] || str_eqb c ($"."))) l = l).
  { induction P as [|c k (H1 & H2 & _) _ IH]; [reflexivity|]. inversion N; subst.
    apply str_eqb_neq in H1, H2. cbn [filter]. rewrite H1. rewrite H2. cbn [orb negb]. f_equal. now apply IH. }
  destruct l as [|c l]; [reflexivity|].
  change ($"/") with [SLASH]. rewrite (split_join SLASH (c :: l)); [exact F|discriminate|].
  now apply Forall_forall.
Qed.
Lemma path_comps_slash s : path_comps (47%N :: s) = path_comps s.
Proof. reflexivity. Qed.
Lemma abspath_place cwd path : absolute cwd = true ->
  exists slashes, (slashes = $"/" \/ slashes = $"//" /\ two_slashes (whole cwd path)) /\
    abspath cwd path = slashes ++ join_with ($"/") (place cwd path).
Proof.
  intros A. destruct (whole_go cwd path A) as [B E]. unfold abspath. fold (whole cwd path).
  unfold normpath. destruct (whole cwd path) as [|c w] eqn:Ew; [discriminate|]. rewrite <- Ew in *.
  rewrite <- absolute_starts, B. unfold norm_comps.
  destruct (norm_go (split_on SLASH (whole cwd path)) [] (Forall_nil _)) as [G _]. cbn [rev] in G.
  rewrite G. change SLASH with 47%N. rewrite E.
  destruct (starts_with ($"//") (whole cwd path) && negb (starts_with ($"///") (whole cwd path))) eqn:T;
    [exists ($"//")|exists ($"/")]; (split; [|reflexivity]); [right|now left]. split; [reflexivity|].
  apply andb_true_iff in T as [T1 T2]. apply starts_with_iff in T1 as [t T1]. exists t. split; [exact T1|].
  destruct (absolute t) eqn:At; [|reflexivity]. exfalso. rewrite T1 in T2.
  destruct t as [|x t]; [discriminate|]. cbn in At. apply N.eqb_eq in At. subst x. discriminate.
Qed.
Lemma common_above a b : common_prefix a b = b <-> above b a.
Proof.
  revert b; induction a as [|x a IH]; intros [|y b]; cbn [common_prefix].
  - split; [intros _; now exists []|reflexivity].
  - split; [discriminate|intros [r E]; discriminate].
  - split; [intros _; now exists (x :: a)|reflexivity].
  - destruct (str_eqb_spec x y) as [->|N].
    + split.
      * intros E. injection E as E. apply IH in E as [r ->]. now exists r.
      * intros [r E]. injection E as E. f_equal. apply IH. now exists r.
    + split; [discriminate|]. intros [r E]. injection E as E _. contradiction.
Qed.
Lemma common_forall (P : str -> Prop) a b : Forall P a -> Forall P (common_prefix a b).
Proof.
  intros F. revert b. induction F as [|x a Hx _ IH]; intros [|y b]; cbn [common_prefix]; try constructor.
  destruct (str_eqb x y); constructor; auto.
Qed.
Lemma common_eq cwd d s : absolute cwd = true ->
  str_eqb (commonpath (abspath cwd d) (abspath cwd s)) (abspath cwd s) = true ->
  above (place cwd s) (place cwd d).
Proof.
  intros A H. apply str_eqb_eq in H.
  destruct (abspath_place cwd d A) as (sd & Sd & Ed). destruct (abspath_place cwd s A) as (ss & Ss & Es).
  destruct (place_plain cwd d) as [Pd Nd]. destruct (place_plain cwd s) as [Ps Ns].
  apply common_above. unfold commonpath in H.
  assert (Cd : path_comps (abspath cwd d) = place cwd d).
  { rewrite Ed. destruct Sd as [->|[-> _]]; now apply join_comps. }
  assert (Cs : path_comps (abspath cwd s) = place cwd s).
  { rewrite Es. destruct Ss as [->|[-> _]]; now apply join_comps. }
  rewrite Cd, Cs in H. apply (f_equal path_comps) in H. rewrite path_comps_slash, Cs in H.
  rewrite join_comps in H; [exact H| |]; now apply common_forall.
Qed.
Lemma common_eq_iff cwd d s : absolute cwd = true -> ~ two_slashes (whole cwd s) ->
  str_eqb (commonpath (abspath cwd d) (abspath cwd s)) (abspath cwd s) = true <->
  above (place cwd s) (place cwd d).
Proof.
  intros A T. split; [now apply common_eq|]. intros H. apply common_above in H. apply str_eqb_eq.
  destruct (abspath_place cwd d A) as (sd & Sd & Ed). destruct (abspath_place cwd s A) as (ss & Ss & Es).
  destruct (place_plain cwd d) as [Pd Nd]. destruct (place_plain cwd s) as [Ps Ns].
  unfold commonpath.
  replace (path_comps (abspath cwd d)) with (place cwd d).
  - replace (path_comps (abspath cwd s)) with (place cwd s).
    + rewrite H, Es. destruct Ss as [->|[-> X]]; [reflexivity|contradiction].
    + rewrite Es. symmetry. destruct Ss as [->|[-> _]]; now apply join_comps.
  - rewrite Ed. symmetry. destruct Sd as [->|[-> _]]; now apply join_comps.
Qed.
Lemma whole_two cwd s : absolute cwd = true -> ~ two_slashes cwd -> ~ two_slashes s -> ~ two_slashes (whole cwd s).
Proof.
  intros A C S. unfold whole. rewrite <- absolute_starts. destruct (absolute s) eqn:B; [exact S|].
  unfold os_join. rewrite <- absolute_starts, B. intros (r & E & Ar).
  destruct cwd as [|c cwd]; [discriminate|]. cbn in A. apply N.eqb_eq in A. subst c.
  cbv iota in E. destruct (ends_with ($"/") (47%N :: cwd)) eqn:T.
  - cbn [app] in E. unfold str, char in *. rewrite T in E. injection E as E. destruct cwd as [|c cwd].
    + cbn in E. subst s. discriminate.
    + cbn [app] in E. injection E as -> E. apply C. exists cwd. split; [reflexivity|].
      destruct cwd as [|c cwd]; [reflexivity|]. subst r. exact Ar.
  - cbn [app] in E. unfold str, char in *. rewrite T in E. injection E as E. destruct cwd as [|c cwd]; [discriminate T|].
    cbn [app] in E. injection E as -> E. apply C. exists cwd. split; [reflexivity|].
    destruct cwd as [|c cwd]; [reflexivity|]. subst r. exact Ar.
Qed.
Lemma directories_ok isdir cwd a a' : absolute cwd = true -> ~ two_slashes cwd ->
  process_directories isdir cwd a = Ok a' ->
  forall d s, In d (a_directories a') -> In s (a_directories a') -> d <> s -> ~ two_slashes s ->
    ~ above (place cwd s) (place cwd d).
Proof.
  intros A C H d s Hd Hs N T U. assert (E := process_detect _ _ _ _ H). subst a'.
  unfold process_directories in H. fold (detect isdir a) in H.
  rewrite exists_sorted in H.
  assert (X : existsb (fun directory => overlaps cwd directory (a_directories (detect isdir a)))
                (a_directories (detect isdir a)) = true); [|unfold str, char in *; rewrite X in H; discriminate].
  apply existsb_exists. exists d. split; [exact Hd|]. unfold overlaps. apply existsb_exists. exists s.
  split; [exact Hs|]. apply andb_true_iff. split.
  - apply negb_true_iff, str_eqb_neq. intros ->. now apply N.
  - apply common_eq_iff; auto. now apply whole_two.
Qed.
Lemma directories_err isdir cwd a e : process_directories isdir cwd a = Err e -> e = UsageError.
Proof. unfold process_directories. destruct (existsb _ _); [|discriminate]. intros H. now injection H. Qed.
Lemma directories_accept isdir cwd a : absolute cwd = true -> a_directories a <> [] ->
  (forall d s, In d (a_directories a) -> In s (a_directories a) -> d <> s -> ~ above (place cwd s) (place cwd d)) ->
  process_directories isdir cwd a = Ok a.
Proof.
  intros A N H. unfold process_directories. fold (detect isdir a). rewrite detect_given by assumption.
  rewrite exists_sorted. destruct (existsb _ _) eqn:E; [exfalso|reflexivity].
  apply existsb_exists in E as (d & Hd & E). unfold overlaps in E. apply existsb_exists in E as (s & Hs & E).
  apply andb_true_iff in E as [E1 E2]. apply negb_true_iff, str_eqb_neq in E1.
  apply common_eq in E2; [|assumption]. revert E2. apply H; auto.
Qed.
Lemma names_directory_iff isdir t : is_directory isdir t = true <-> names_directory isdir t.
Proof.
  unfold is_directory, names_directory. rewrite andb_true_iff, has_char_iff. reflexivity.
Qed.
Lemma not_directory isdir t : ~ names_directory isdir t -> is_directory isdir t = false.
Proof. rewrite <- names_directory_iff. destruct (is_directory isdir t); [intros H; now elim H|reflexivity]. Qed.
Lemma all_directories isdir l : Forall (names_directory isdir) l <-> Forall (fun t => is_directory isdir t = true) l.
Proof. rewrite !Forall_forall. split; intros H t Ht; apply names_directory_iff, H, Ht. Qed.
Lemma c36_taken isdir cwd a a' : a_directories a = [] -> process_directories isdir cwd a = Ok a' ->
  exists taken, Splits (a_tests a) (a_tests a') taken /\ Forall (names_directory isdir) taken /\
    (taken = [] -> a_directories a' = [$"."]) /\ (taken <> [] -> Permutation (a_directories a') (map normpath taken)).
Proof.
  intros H E. apply process_detect in E. subst a'.
  destruct (detect_split isdir a H) as (taken & dirs & S & F & P & D).
  exists taken. split; [exact S|]. split; [now apply all_directories|]. split.
  - intros ->. cbn in P. apply Permutation_sym, Permutation_nil in P. now subst dirs.
  - intros N. destruct dirs as [|d dirs]; [apply Permutation_nil in P; apply map_eq_nil in P; contradiction|].
    now rewrite D.
Qed.
Lemma c36_given isdir cwd a a' : a_directories a <> [] -> process_directories isdir cwd a = Ok a' -> a' = a.
Proof. intros H E. apply process_detect in E. subst a'. now apply detect_given. Qed.
Lemma c36_front isdir cwd a a' lead mid : a_directories a = [] -> process_directories isdir cwd a = Ok a' ->
  a_tests a = lead ++ mid -> lead <> [] -> Forall (names_directory isdir) lead ->
  (forall t rest, mid = t :: rest -> ~ names_directory isdir t) ->
  a_tests a' = mid /\ a_directories a' = map normpath lead.
Proof.
  intros H E Et N F M. apply process_detect in E. subst a'. apply detect_front; auto; [now apply all_directories|].
  destruct mid; [exact I|]. eapply not_directory, M. reflexivity.
Qed.
Lemma c36_back isdir cwd a a' mid tail : a_directories a = [] -> process_directories isdir cwd a = Ok a' ->
  a_tests a = mid ++ tail -> mid <> [] -> tail <> [] ->
  (forall t rest, mid = t :: rest -> ~ names_directory isdir t) ->
  (forall t rest, mid = rest ++ [t] -> ~ names_directory isdir t) ->
  Forall (names_directory isdir) tail -> NoDup tail -> (forall t, In t tail -> ~ In t mid) ->
  a_tests a' = mid /\ a_directories a' = map normpath (rev tail).
Proof.
  intros H E Et N1 N2 M1 M2 F D X. apply process_detect in E. subst a'. apply detect_back; auto.
  - destruct mid; [easy|]. eapply not_directory, M1. reflexivity.
  - destruct (rev mid) as [|t l] eqn:Er.
    + apply N1. rewrite <- (rev_involutive mid), Er. reflexivity.
    + apply not_directory, (M2 t (rev l)). rewrite <- (rev_involutive mid), Er. reflexivity.
  - now apply all_directories.
Qed.
Lemma c36_none isdir cwd a a' : a_directories a = [] -> process_directories isdir cwd a = Ok a' ->
  (forall t rest, a_tests a = t :: rest -> ~ names_directory isdir t) ->
  (forall t rest, a_tests a = rest ++ [t] -> ~ names_directory isdir t) ->
  a_tests a' = a_tests a /\ a_directories a' = [$"."].
Proof.
  intros H E M1 M2. apply process_detect in E. subst a'. apply detect_none; auto.
  - destruct (a_tests a); [exact I|]. eapply not_directory, M1. reflexivity.
  - destruct (rev (a_tests a)) as [|t l] eqn:Er; [exact I|].
    apply not_directory, (M2 t (rev l)). rewrite <- (rev_involutive (a_tests a)), Er. reflexivity.
Qed.
