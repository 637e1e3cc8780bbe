(** What a result depends on. *)
From Coq Require Import List NArith ZArith Bool Lia.
From Verif Require Import Py PathSpec EntrySpec GrammarSpec TypeSpec WalkModel WalkSpec.
From Verif Require Import OsPath PathModel EntryModel EntryProofs TypeModel RegistryModel TestModel ArgumentsModel ArgumentsSpec
  ArgumentsProofs SearchModel SearchSpec SearchTreeProofs SearchEndProofs LawSpec LawProofs LocalSpec.
Import ListNotations.
Local Open Scope Z_scope.

Lemma satisfied_test P t : Satisfied P [[BTest t]] <-> P t.
Proof. unfold Satisfied. cbn. tauto. Qed.

Lemma process_dirs a : a_directories (process_arguments a) = a_directories a.
Proof.
  destruct (process_steps a) as (b & (H0 & _) & ->). cbv zeta.
  assert (E : a_directories b = a_directories a) by (destruct H0; tauto || intuition).
  rewrite <- E. set (c := match a_depth b with Some (r :: l) => _ | _ => b end).
  assert (Ec : a_directories c = a_directories b).
  { unfold c. destruct (a_depth b) as [[|r l]|]; try reflexivity. unfold process_depth_argument. now destruct (all_stops (r :: l)). }
  rewrite <- Ec. clearbody c. destruct (a_count c) as [[|[|? ?] [|? ?]]|]; reflexivity.
Qed.

(** Files with other names do not matter. *)
Lemma place_cons l n k g : Place l (n :: k) g -> exists f, In f l /\ f_name f = n /\ forall l', In f l' -> Place l' (n :: k) g.
Proof.
  intros H. remember (n :: k) as names eqn:E. revert n k E. induction H as [f Hf|names d f Hd IH D Hf]; intros n k E.
  - injection E as <- <-. exists f. split; [exact Hf|]. split; [reflexivity|]. intros l' H. now constructor.
  - destruct names as [|n' names]; [exfalso; exact (place_nonempty _ _ _ Hd eq_refl)|].
    cbn [app] in E. injection E as <- <-. destruct (IH n' names eq_refl) as (f0 & H1 & H2 & H3).
    exists f0. split; [exact H1|]. split; [exact H2|]. intros l' Hl. apply (place_below l' (n' :: names) d f); auto.
Qed.
Lemma agree_other l l' n names : (forall f, f_name f = n -> In f l <-> In f l') -> Agree l l' (n :: names).
Proof.
  intros H k r st E Nk. destruct k as [|n' k]; [contradiction|]. cbn [app] in E. injection E as <- _.
  split; intros (g & P & Es); exists g; (split; [|exact Es]); destruct (place_cons _ _ _ _ P) as (f & F1 & F2 & F3);
    apply F3, (H f F2), F1.
Qed.

Section Local.
  Variable R : Type.
  Variable rcompile : str -> res R.
  Variable rsearch : R -> str -> bool.
  Variable parse_time : str -> res Z.
  Variable debug : bool.
  Variable case : case_mode.
  Variable registered : list plugin.
  Variable init_plugin : str -> res unit.
  Variable reference_value : str * str -> str -> res value.
  Variable score : test R -> Z.
  Variable other : entry -> str -> option value.
  Variable plugin_value : entry -> str * str -> option value.
  Variable cwd : str.
  Variable device : str -> Z.
  Variable rendered : entry -> bool.
  Variable m : mode.
  Notation honest := (honest registered init_plugin other plugin_value).
  Notation sensible_args := (sensible_args R rcompile parse_time debug case registered init_plugin reference_value).
  Notation Finds listing := (Finds R rcompile rsearch parse_time debug case registered init_plugin reference_value score other
    plugin_value cwd device listing rendered m).
  Notation Legal := (Legal R rcompile parse_time debug case registered init_plugin reference_value).
  Notation Holds e s := (Holds R rcompile rsearch parse_time debug case registered init_plugin reference_value (attribute_value other plugin_value e) s).
  Notation reported listing := (finds_reported R rcompile rsearch parse_time debug case registered init_plugin reference_value score other
    plugin_value cwd device listing rendered m).

  (** ** The way decides *)
  Lemma local a ess listing listing' l l' d names f e :
    honest -> sensible_args a ess -> real_directories cwd listing a -> real_directories cwd listing' a ->
    In d (a_directories a) -> Place (contents cwd listing a d) names f -> entry_at cwd device a d names f e ->
    Agree (contents cwd listing a d) (contents cwd listing' a d) names ->
    Finds listing a l -> Finds listing' a l' -> In e l -> In e l'.
  Proof.
    intros Ho S Rd Rd' Hd Pl At Ag F F'.
    rewrite (reported listing _ ess _ Ho S Rd F), (reported listing' _ ess _ Ho S Rd' F').
    intros [(d0 & names0 & f0 & H1 & H2 & H3 & H4 & H5 & K) P]. split; [|exact P].
    assert (SP : start_path cwd (absolute_paths a) d = start_path cwd (absolute_paths a) d0 /\ names = names0).
    { exact (LawProofs.same_place cwd device listing a d0 names0 f0 d names f e Rd H1 Hd H2 Pl H3 At). }
    destruct SP as [Ed <-].
    assert (Ec : forall x, contents cwd x a d0 = contents cwd x a d) by (intros x; unfold contents; now rewrite Ed).
    assert (Ea : forall n x y, entry_at cwd device a d0 n x y <-> entry_at cwd device a d n x y).
    { intros n x y. unfold entry_at, start_dir. cbv zeta. rewrite Ed. reflexivity. }
    rewrite Ec in H2. apply Ea in H3.
    destruct (proj1 (Ag names [] (f_status f0) (eq_sym (app_nil_r _)) (place_nonempty _ _ _ H2))) as (f' & P' & E'); [eauto|].
    exists d, names, f'. split; [exact Hd|]. split; [exact P'|]. split; [unfold entry_at in *; now rewrite E'|].
    split; [|split; [exact H5|exact K]].
    intros k r g e' E Nk Pg Eg.
    destruct (proj2 (Ag k r (f_status g) E Nk)) as (g0 & P0 & E0); [eauto|].
    apply (H4 k r g0 e' E Nk); [rewrite Ec; exact P0|]. apply Ea. unfold entry_at in *. now rewrite E0.
  Qed.

  (** ** -e *)
  Variable listing : str -> list file.
  Lemma way_place a d names f e d' names' f' e' : real_directories cwd listing a ->
    In d (a_directories a) -> In d' (a_directories a) ->
    Place (contents cwd listing a d) names f -> Place (contents cwd listing a d') names' f' ->
    entry_at cwd device a d names f e -> entry_at cwd device a d' names' f' e' -> Way e' e ->
    start_path cwd (absolute_paths a) d' = start_path cwd (absolute_paths a) d /\ exists r, names = names' ++ r.
  Proof.
    intros Rd Hd Hd' P P' E E' (Es & n & b & Nn & Fn & W1 & W2). destruct (Rd d Hd) as [Np V], (Rd d' Hd') as [Np' V'].
    destruct (place_valid _ _ _ V P) as (_ & _ & O), (place_valid _ _ _ V' P') as (_ & _ & O').
    pose proof (place_nonempty _ _ _ P) as N. pose proof (place_nonempty _ _ _ P') as N'.
    destruct (entry_fields (start_dir cwd device (absolute_paths a) d) Np names (f_status f) e N O E) as (A1 & A2 & _).
    destruct (entry_fields (start_dir cwd device (absolute_paths a) d') Np' names' (f_status f') e' N' O' E') as (B1 & B2 & _).
    assert (Fn' : Forall name_ok n) by (apply Forall_app in Fn; tauto).
    split.
    - rewrite A1, B1 in Es. unfold start_dir in Es. cbv zeta in Es. now injection Es as -> _ _.
    - rewrite B2 in W1. rewrite A2 in W2. apply join_inj in W1; auto. subst n. exists b.
      apply join_inj in W2; auto. intros K. apply app_eq_nil in K as [K _]. contradiction.
  Qed.
  Lemma prefix_way a d names r g e e' f : real_directories cwd listing a -> In d (a_directories a) ->
    Place (contents cwd listing a d) (names ++ r) f -> Place (contents cwd listing a d) names g ->
    entry_at cwd device a d (names ++ r) f e -> entry_at cwd device a d names g e' -> Way e' e.
  Proof.
    intros Rd Hd P P' E E'. destruct (Rd d Hd) as [Np V].
    destruct (place_valid _ _ _ V P) as (_ & _ & O), (place_valid _ _ _ V P') as (_ & _ & O').
    pose proof (place_nonempty _ _ _ P) as N. pose proof (place_nonempty _ _ _ P') as N'.
    destruct (entry_fields (start_dir cwd device (absolute_paths a) d) Np _ (f_status f) e N O E) as (A1 & A2 & _).
    destruct (entry_fields (start_dir cwd device (absolute_paths a) d) Np names (f_status g) e' N' O' E') as (B1 & B2 & _).
    split; [congruence|]. exists names, r. auto.
  Qed.
  Lemma exclude_below a ts ess x l0 l1 l : honest -> is_test x -> Legal x ->
    sensible_args (set_tests a ts) ess -> ranges a = [] -> real_directories cwd listing a ->
    (forall e, processable m rendered e) ->
    Finds listing (set_tests a ts) l0 -> Finds listing (set_tests a [x]) l1 ->
    Finds listing (set_tests (set_exclude a (a_exclude a ++ [x])) ts) l ->
    forall e, In e l <-> In e l0 /\ forall e', Way e' e -> ~ In e' l1.
  Proof.
    intros Ho Tx Lx S0 Nr Rd Pr F0 F1 F e.
    pose proof S0 as (A & B & C & D & E & G).
    assert (X1 : Expression [x] [[BTest x]]).
    { assert (NE : no_empty [[BTest x]]) by (repeat constructor; discriminate).
      split; [|right; exact NE]. apply Alts_one. apply (Run_op no_empty [x] (BTest x) [] []); [now constructor|constructor]. }
    assert (S1 : sensible_args (set_tests a [x]) [[BTest x]]).
    { split; [exact X1|]. split; [intros t [<-|[]] _; exact Lx|]. split; [exact C|].
      split; [left; exact Nr|]. split; [exact E|exact G]. }
    assert (S : sensible_args (set_tests (set_exclude a (a_exclude a ++ [x])) ts) ess).
    { split; [exact A|]. split; [exact B|]. split; [exact C|]. split; [left; exact Nr|].
      split; [|exact G]. apply Forall_app. split; [exact E|]. repeat constructor; auto; apply Tx. }
    rewrite (reported listing _ _ _ Ho S0 Rd F0), (reported listing _ _ _ Ho S Rd F).
    split.
    - intros [(d & names & f & H1 & H2 & H3 & H4 & H5 & K) P]. split.
      + split; [|exact P]. exists d, names, f. split; [exact H1|]. split; [exact H2|]. split; [exact H3|].
        split; [|split; [exact H5|exact K]].
        intros k r g e' Ek Nk Pg Eg X. apply (H4 k r g e' Ek Nk Pg Eg).
        destruct X as [(s & X2 & X3)|X]; [left; exists s; split; [apply in_or_app; now left|exact X3]|right; exact X].
      + intros e' W. rewrite (reported listing _ _ _ Ho S1 Rd F1).
        intros [(d' & names' & f' & H1' & H2' & H3' & H4' & H5' & K') _]. apply satisfied_test in K'.
        destruct (way_place a d names f e d' names' f' e' Rd H1 H1' H2 H2' H3 H3' W) as [Ed [r ->]].
        apply (H4 names' r f' e' eq_refl (place_nonempty _ _ _ H2')).
        * change (Place (listing (start_path cwd (absolute_paths a) d)) names' f'). rewrite <- Ed. exact H2'.
        * change (mk_entry (Start (start_path cwd (absolute_paths a) d) (abspath cwd (start_path cwd (absolute_paths a) d)) (device (start_path cwd (absolute_paths a) d)))
               (walk_relpath names') (f_status f') = Ok e'). rewrite <- Ed. exact H3'.
        * left. exists x. split; [apply in_or_app; right; now left|exact K'].
    - intros [[(d & names & f & H1 & H2 & H3 & H4 & H5 & K) P] Nw]. split; [|exact P].
      exists d, names, f. split; [exact H1|]. split; [exact H2|]. split; [exact H3|].
      split; [|split; [exact H5|exact K]].
      intros k r g e' Ek Nk Pg Eg X. subst names.
      destruct X as [(s & X2 & X3)|X]; [|apply (H4 k r g e' eq_refl Nk Pg Eg); right; exact X].
      cbn [a_exclude set_exclude set_tests] in X2. apply in_app_or in X2 as [X2|[<-|[]]];
        [apply (H4 k r g e' eq_refl Nk Pg Eg); left; now exists s|].
      apply (Nw e'); [eapply (prefix_way a d k r g e e' f); eauto|].
      rewrite (reported listing _ _ _ Ho S1 Rd F1). split; [|apply Pr].
      exists d, k, g. split; [exact H1|]. split; [exact Pg|]. split; [exact Eg|]. split.
      + intros k' r' g' e'' Ek' Nk' Pg' Eg' X. subst k. rewrite <- app_assoc in *.
        exact (H4 k' (r' ++ r) g' e'' eq_refl Nk' Pg' Eg' X).
      + split; [intros N; exfalso; apply N; exact Nr|]. now apply satisfied_test.
  Qed.

  (** ** In short *)
  Lemma shorthand a i o h l :
    Finds listing (set_flags a i o h) l <->
    Finds listing (set_exclude (set_flags a false false false)
      (a_exclude a ++ (if i then [$"ignored=yes"] else []) ++ (if o then [$"samedev=no"] else []) ++ (if h then [$"hide=yes"] else []))) l.
  Proof.
    unfold LawProofs.Finds, search_excluded, search_matched, search_roots.
    rewrite !process_tests, !process_exclude. unfold flag_tests.
    cbn [set_exclude set_flags a_exclude a_ignore a_one_file_system a_hide a_depth a_tests]. rewrite <- !app_assoc. cbn [app].
    rewrite !process_absolute, !process_dirs. reflexivity.
  Qed.
  Lemma unlimited a ess l l' : honest -> sensible_args (no_depth a) ess -> no_empty ess \/ a_tests a = [] -> real_directories cwd listing a ->
    Finds listing (no_depth a) l -> Finds listing (set_depth a [(0, None)]) l' -> forall e, In e l <-> In e l'.
  Proof.
    intros Ho S Ne Rd F F' e. pose proof S as (A & B & C & D & E & G).
    assert (S' : sensible_args (set_depth a [(0, None)]) ess).
    { split; [exact A|]. split; [exact B|]. split; [repeat constructor; cbn; lia|]. split; [right; destruct Ne; auto|]. split; [exact E|exact G]. }
    rewrite (reported listing _ ess _ Ho S Rd F), (reported listing _ ess _ Ho S' Rd F').
    split; intros [(d & names & f & H1 & H2 & H3 & H4 & H5 & K) P]; (split; [|exact P]); exists d, names, f;
      (split; [exact H1|]); (split; [exact H2|]); (split; [exact H3|]); (split; [|split; [|exact K]]).
    - intros k r g e' Ek Nk Pg Eg X. apply (H4 k r g e' Ek Nk Pg Eg).
      destruct X as [X|[X|[X|[X|(_ & X & _)]]]]; [left; exact X|right; left; exact X|do 2 right; left; exact X|do 3 right; left; exact X|].
      exfalso. apply (X (0, None)); [now left|reflexivity].
    - intros _. exists (0, None). split; [now left|]. pose proof (place_nonempty _ _ _ H2) as N. destruct names; [contradiction|].
      cbn [length]. split; [cbn [fst]; lia|exact I].
    - intros k r g e' Ek Nk Pg Eg X. apply (H4 k r g e' Ek Nk Pg Eg).
      destruct X as [X|[X|[X|[X|(X & _)]]]]; [left; exact X|right; left; exact X|do 2 right; left; exact X|do 3 right; left; exact X|].
      exfalso. now apply X.
    - intros X. exfalso. now apply X.
  Qed.
End Local.
