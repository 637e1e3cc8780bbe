(** Laws between searches with different arguments. *)
From Coq Require Import List NArith ZArith Bool Lia.
From Verif Require Import Py PathSpec EntrySpec GrammarSpec TypeSpec WalkModel WalkSpec.
From Verif Require Import OsPath PathModel EntryModel EntryProofs TypeModel RegistryModel TestModel ArgumentsModel ArgumentsSpec
  SearchModel SearchSpec SearchTreeProofs SearchEndProofs LawSpec.
Import ListNotations.
Local Open Scope Z_scope.

(** ** Expressions *)
Lemma alts_or ok ts1 ess1 o ts2 ess2 : Alts ok ts1 ess1 -> is_OR o -> Alts ok ts2 ess2 ->
  Alts ok (ts1 ++ o :: ts2) (ess1 ++ ess2).
Proof.
  intros H O K. induction H as [ts es H|ts1 es o1 ts ess H O1 A IH].
  - now apply Alts_or.
  - rewrite <- app_assoc. cbn [app]. apply Alts_or; assumption.
Qed.
Lemma expression_or ts1 ess1 o ts2 ess2 : Expression ts1 ess1 -> Expression ts2 ess2 -> no_empty ess1 -> no_empty ess2 ->
  is_OR o -> Expression (ts1 ++ o :: ts2) (ess1 ++ ess2).
Proof.
  intros [A1 _] [A2 _] N1 N2 O. split; [now apply alts_or|]. right. apply Forall_app. now split.
Qed.
Lemma expression_and ts1 ess1 ts2 ess2 o1 c1 o2 c2 : Expression ts1 ess1 -> Expression ts2 ess2 -> no_empty ess1 -> no_empty ess2 ->
  is_open o1 -> is_close c1 -> is_open o2 -> is_close c2 ->
  Expression ((o1 :: ts1 ++ [c1]) ++ (o2 :: ts2 ++ [c2]) ++ []) [[BGroup false ess1; BGroup false ess2]].
Proof.
  intros [A1 _] [A2 _] N1 N2 O1 C1 O2 C2. split; [|right; constructor; [discriminate|constructor]].
  constructor. apply Run_op; [now apply Op_group|]. apply Run_op; [now apply Op_group|constructor].
Qed.
Lemma expression_not ts ess n o c : Expression ts ess -> no_empty ess -> is_NOT n -> is_open o -> is_close c ->
  Expression ((n :: o :: ts ++ [c]) ++ []) [[BGroup true ess]].
Proof.
  intros [A _] N Hn O C. split; [|right; constructor; [discriminate|constructor]].
  constructor. apply Run_op; [now apply Op_not_group|constructor].
Qed.
Lemma satisfied_or P ess1 ess2 : Satisfied P (ess1 ++ ess2) <-> Satisfied P ess1 \/ Satisfied P ess2.
Proof.
  unfold Satisfied. induction ess1 as [|es ess1 IH]; [cbn; tauto|]. cbn in *. tauto.
Qed.
Lemma satisfied_and P ess1 ess2 : Satisfied P [[BGroup false ess1; BGroup false ess2]] <-> Satisfied P ess1 /\ Satisfied P ess2.
Proof. unfold Satisfied. cbn. tauto. Qed.
Lemma satisfied_not P ess : Satisfied P [[BGroup true ess]] <-> ~ Satisfied P ess.
Proof. unfold Satisfied. cbn. tauto. Qed.
Lemma satisfied_nil P : Satisfied P [[]].
Proof. unfold Satisfied. cbn. tauto. Qed.

Section Laws.
  Variable R : Type.
  Variable rcompile : str -> res R.
  Variable rsearch : R -> str -> bool.
  Variable parse_time : str -> res Z.
  Variable debug : bool.
  Variable case : case_mode.
  Variable registered : list plugin.
  Variable init_plugin : str -> res unit.
  Variable reference_value : str * str -> str -> res value.
  Variable score : test R -> Z.
  Variable other : entry -> str -> option value.
  Variable plugin_value : entry -> str * str -> option value.
  Variable cwd : str.
  Variable device : str -> Z.
  Variable listing : str -> list file.
  Variable rendered : entry -> bool.
  Variable m : mode.
  Notation honest := (honest registered init_plugin other plugin_value).
  Notation sensible_args := (sensible_args R rcompile parse_time debug case registered init_plugin reference_value).
  Notation real_directories := (real_directories cwd listing).
  Notation Reported := (Reported R rcompile rsearch parse_time debug case registered init_plugin reference_value other plugin_value cwd device listing).
  Notation Excluded := (Excluded R rcompile rsearch parse_time debug case registered init_plugin reference_value other plugin_value).
  Notation Legal := (Legal R rcompile parse_time debug case registered init_plugin reference_value).
  Notation excluded a := (search_excluded R rcompile rsearch parse_time debug case registered init_plugin reference_value score other
    plugin_value (process_arguments a)).
  Notation matched a := (search_matched R rcompile rsearch parse_time debug case registered init_plugin reference_value score other
    plugin_value (process_arguments a)).
  Notation roots_of a := (search_roots cwd device listing (process_arguments a)).

  (** l is what a search with the arguments a has found when it has ended
      normally, with any number of processes and any schedule in which no
      process overlooks its work (C76). *)
  Definition Finds (a : pargs) (l : list entry) : Prop :=
    exists jobs halt timeout roots ls s, (0 < jobs)%nat /\ roots_of a = Ok roots /\
      WalkModel.run entry (excluded a) (matched a) rendered m jobs halt true true timeout (initial entry jobs roots) ls s /\
      main_ s = MPassed /\ l = results m s.

  Lemma finds_reported a ess l : honest -> sensible_args a ess -> real_directories a -> Finds a l ->
    forall e, In e l <-> Reported a ess e /\ processable m rendered e.
  Proof.
    intros H1 H2 H3 (jobs & halt & timeout & roots & ls & s & J & E & Hr & M & ->).
    destruct (search_complete R rcompile rsearch parse_time debug case registered init_plugin reference_value score other plugin_value
      cwd device listing a ess H1 H2 H3 rendered m jobs halt true true timeout J eq_refl (fun _ => eq_refl)) as (roots' & E' & C).
    rewrite E in E'. injection E' as <-. exact (C ls s Hr M).
  Qed.

  Lemma finds_exists a ess : honest -> sensible_args a ess -> real_directories a -> exists l, Finds a l.
  Proof.
    intros H1 H2 H3.
    destruct (search_ends R rcompile rsearch parse_time debug case registered init_plugin reference_value score other plugin_value
      cwd device listing a ess H1 H2 H3 rendered m 1%nat false true true 1 eq_refl) as (roots & E & C).
    destruct (C [] (initial entry 1%nat roots)) as (ls & s & Hr & _ & M).
    - constructor.
    - split; [reflexivity|]. split; [now left|]. repeat constructor; discriminate.
    - exists (results m s), 1%nat, false, 1, roots, ls, s. repeat split; auto.
  Qed.

  Variable a : pargs.
  Hypothesis Ho : honest.

  (** *** Tests *)
  Notation at_ ts := (set_tests a ts).
  Lemma reported_tests ts ts' ess ess' e : Reported (at_ ts) ess e ->
    SearchSpec.Satisfied (fun s => Holds R rcompile rsearch parse_time debug case registered init_plugin reference_value (attribute_value other plugin_value e) s) ess' ->
    Reported (at_ ts') ess' e.
  Proof.
    intros (d & names & f & H1 & H2 & H3 & H4 & H5 & _) S. exists d, names, f. auto 8.
  Qed.
  Lemma reported_satisfied b ess e : Reported b ess e ->
    SearchSpec.Satisfied (fun s => Holds R rcompile rsearch parse_time debug case registered init_plugin reference_value (attribute_value other plugin_value e) s) ess.
  Proof. intros (d & names & f & H1 & H2 & H3 & H4 & H5 & S). exact S. Qed.

  Variables (ts1 ts2 : list str) (ess1 ess2 : list (list bexp)).
  Hypothesis S1 : sensible_args (at_ ts1) ess1.
  Hypothesis S2 : sensible_args (at_ ts2) ess2.
  Hypothesis N1 : no_empty ess1.
  Hypothesis N2 : no_empty ess2.
  Hypothesis Rd : real_directories a.

  Lemma sensible_tests ts ess : Expression ts ess -> no_empty ess -> (forall t, In t ts -> is_test t -> Legal t) ->
    sensible_args (at_ ts) ess.
  Proof.
    intros E N L. destruct S1 as (_ & _ & B & _ & C & D). split; [exact E|]. split; [exact L|]. split; [exact B|].
    split; [now right; right|]. split; [exact C|exact D].
  Qed.
  Lemma legal1 t : In t ts1 -> is_test t -> Legal t.
  Proof. apply S1. Qed.
  Lemma legal2 t : In t ts2 -> is_test t -> Legal t.
  Proof. apply S2. Qed.

  Lemma sensible_or o : is_OR o -> sensible_args (at_ (ts1 ++ o :: ts2)) (ess1 ++ ess2).
  Proof.
    intros O. apply sensible_tests.
    - apply expression_or; try assumption; [apply S1|apply S2].
    - apply Forall_app. now split.
    - intros t Ht It. apply in_app_or in Ht as [Ht|[<-|Ht]]; [now apply legal1| |now apply legal2].
      exfalso. unfold is_test in It. tauto.
  Qed.
  Lemma sensible_and o1 c1 o2 c2 : is_open o1 -> is_close c1 -> is_open o2 -> is_close c2 ->
    sensible_args (at_ ((o1 :: ts1 ++ [c1]) ++ (o2 :: ts2 ++ [c2]) ++ [])) [[BGroup false ess1; BGroup false ess2]].
  Proof.
    intros O1 C1 O2 C2. apply sensible_tests.
    - apply expression_and; try assumption; [apply S1|apply S2].
    - constructor; [discriminate|constructor].
    - intros t Ht It. unfold is_test in It.
      rewrite app_nil_r in Ht. apply in_app_or in Ht as [[<-|Ht]|[<-|Ht]]; [tauto| |tauto|];
        apply in_app_or in Ht as [Ht|[<-|[]]]; try tauto; [now apply legal1|now apply legal2].
  Qed.
  Lemma sensible_not n o c : is_NOT n -> is_open o -> is_close c ->
    sensible_args (at_ ((n :: o :: ts1 ++ [c]) ++ [])) [[BGroup true ess1]].
  Proof.
    intros Hn O C. apply sensible_tests.
    - apply expression_not; try assumption. apply S1.
    - constructor; [discriminate|constructor].
    - intros t Ht It. unfold is_test in It. rewrite app_nil_r in Ht. destruct Ht as [<-|[<-|Ht]]; [tauto|tauto|].
      apply in_app_or in Ht as [Ht|[<-|[]]]; [now apply legal1|tauto].
  Qed.
  Lemma sensible_nil : sensible_args (at_ []) [[]].
  Proof.
    destruct S1 as (_ & _ & B & _ & K & D). split; [split; [repeat constructor|now left]|]. split; [intros t []|].
    split; [exact B|]. split; [now right; left|]. split; [exact K|exact D].
  Qed.
  Lemma law_or o l1 l2 l : is_OR o -> Finds (at_ ts1) l1 -> Finds (at_ ts2) l2 -> Finds (at_ (ts1 ++ o :: ts2)) l ->
    forall e, In e l <-> In e l1 \/ In e l2.
  Proof.
    intros O F1 F2 F e. pose proof (sensible_or o O) as S.
    rewrite (finds_reported _ _ _ Ho S1 Rd F1), (finds_reported _ _ _ Ho S2 Rd F2), (finds_reported _ _ _ Ho S Rd F).
    split.
    - intros [H P]. pose proof (reported_satisfied _ _ _ H) as K. apply satisfied_or in K as [K|K]; [left|right];
        (split; [eapply reported_tests; eassumption|exact P]).
    - intros [[H P]|[H P]]; (split; [|exact P]); pose proof (reported_satisfied _ _ _ H) as K;
        (eapply reported_tests; [exact H|]); apply satisfied_or; auto.
  Qed.
  Lemma law_and o1 c1 o2 c2 l1 l2 l : is_open o1 -> is_close c1 -> is_open o2 -> is_close c2 ->
    Finds (at_ ts1) l1 -> Finds (at_ ts2) l2 -> Finds (at_ ((o1 :: ts1 ++ [c1]) ++ (o2 :: ts2 ++ [c2]) ++ [])) l ->
    forall e, In e l <-> In e l1 /\ In e l2.
  Proof.
    intros O1 C1 O2 C2 F1 F2 F e.
    pose proof (sensible_and o1 c1 o2 c2 O1 C1 O2 C2) as S.
    rewrite (finds_reported _ _ _ Ho S1 Rd F1), (finds_reported _ _ _ Ho S2 Rd F2), (finds_reported _ _ _ Ho S Rd F).
    split.
    - intros [H P]. pose proof (reported_satisfied _ _ _ H) as K. apply satisfied_and in K as [K1 K2].
      split; (split; [eapply reported_tests; eassumption|exact P]).
    - intros [[H1 P] [H2 _]]. split; [|exact P]. eapply reported_tests; [exact H1|]. apply satisfied_and.
      split; eapply reported_satisfied; eassumption.
  Qed.
  Lemma law_not n o c l0 l1 l : is_NOT n -> is_open o -> is_close c ->
    Finds (at_ []) l0 -> Finds (at_ ts1) l1 -> Finds (at_ ((n :: o :: ts1 ++ [c]) ++ [])) l ->
    forall e, In e l <-> In e l0 /\ ~ In e l1.
  Proof.
    intros Hn O C F0 F1 F e.
    pose proof (sensible_not n o c Hn O C) as S. pose proof sensible_nil as S0.
    rewrite (finds_reported _ _ _ Ho S0 Rd F0), (finds_reported _ _ _ Ho S1 Rd F1), (finds_reported _ _ _ Ho S Rd F).
    split.
    - intros [H P]. pose proof (reported_satisfied _ _ _ H) as K. apply satisfied_not in K. split.
      + split; [|exact P]. eapply reported_tests; [exact H|apply satisfied_nil].
      + intros [H1 _]. apply K. eapply reported_satisfied, H1.
    - intros [[H P] N]. split; [|exact P]. eapply reported_tests; [exact H|]. apply satisfied_not. intros K. apply N.
      split; [|exact P]. eapply reported_tests; [exact H|exact K].
  Qed.
End Laws.

(** ** Directories, depths and exclusion *)
Section Others.
  Variable R : Type.
  Variable rcompile : str -> res R.
  Variable rsearch : R -> str -> bool.
  Variable parse_time : str -> res Z.
  Variable debug : bool.
  Variable case : case_mode.
  Variable registered : list plugin.
  Variable init_plugin : str -> res unit.
  Variable reference_value : str * str -> str -> res value.
  Variable score : test R -> Z.
  Variable other : entry -> str -> option value.
  Variable plugin_value : entry -> str * str -> option value.
  Variable cwd : str.
  Variable device : str -> Z.
  Variable listing : str -> list file.
  Variable rendered : entry -> bool.
  Variable m : mode.
  Notation honest := (honest registered init_plugin other plugin_value).
  Notation sensible_args := (sensible_args R rcompile parse_time debug case registered init_plugin reference_value).
  Notation real_directories := (real_directories cwd listing).
  Notation Reported := (Reported R rcompile rsearch parse_time debug case registered init_plugin reference_value other plugin_value cwd device listing).
  Notation Excluded := (Excluded R rcompile rsearch parse_time debug case registered init_plugin reference_value other plugin_value).
  Notation Finds := (Finds R rcompile rsearch parse_time debug case registered init_plugin reference_value score other plugin_value
    cwd device listing rendered m).
  Notation finds_reported := (finds_reported R rcompile rsearch parse_time debug case registered init_plugin reference_value score other plugin_value
    cwd device listing rendered m).
  Variable a : pargs.
  Variable ess : list (list bexp).
  Hypothesis Ho : honest.

  Lemma law_directories ds1 ds2 l1 l2 l :
    sensible_args a ess -> real_directories (set_directories a (ds1 ++ ds2)) ->
    Finds (set_directories a ds1) l1 -> Finds (set_directories a ds2) l2 -> Finds (set_directories a (ds1 ++ ds2)) l ->
    forall e, In e l <-> In e l1 \/ In e l2.
  Proof.
    intros S Rd F1 F2 F e.
    assert (Rd1 : real_directories (set_directories a ds1)) by (intros d Hd; apply (Rd d), in_or_app; now left).
    assert (Rd2 : real_directories (set_directories a ds2)) by (intros d Hd; apply (Rd d), in_or_app; now right).
    rewrite (finds_reported (set_directories a ds1) ess _ Ho S Rd1 F1), (finds_reported (set_directories a ds2) ess _ Ho S Rd2 F2),
      (finds_reported (set_directories a (ds1 ++ ds2)) ess _ Ho S Rd F).
    split.
    - intros [(d & names & f & H1 & H2) P]. cbn [a_directories set_directories] in H1. apply in_app_or in H1 as [H1|H1]; [left|right];
        (split; [exists d, names, f; split; [exact H1|exact H2]|exact P]).
    - intros [[(d & names & f & H1 & H2) P]|[(d & names & f & H1 & H2) P]]; (split; [|exact P]);
        exists d, names, f; (split; [apply in_or_app; auto|exact H2]).
  Qed.

  (** Places with an excluded one on the way because of the depth are too deep. *)
  Lemma not_beyond l n k : in_ranges l n -> bounded l -> (k <= n) -> ~ beyond l k.
  Proof.
    intros (r & Hr & I) B L N. destruct (snd r) as [stop|] eqn:E; [|now apply (B r Hr)].
    specialize (N r stop Hr E). unfold in_range in I. rewrite E in I. lia.
  Qed.
  Lemma reported_depth l l' e : l' <> [] -> (forall n, in_ranges l n -> in_ranges l' n) -> l <> [] ->
    Reported (set_depth a l) ess e -> Reported (set_depth a l') ess e.
  Proof.
    intros N' I N (d & names & f & H1 & H2 & H3 & H4 & H5 & S). exists d, names, f. split; [exact H1|]. split; [exact H2|].
    split; [exact H3|]. assert (In_ : in_ranges l' (Z.of_nat (length names) - 1)) by (apply I, H5, N).
    split; [|split; [intros _; exact In_|exact S]].
    intros k r g e' E K Pg Eg X. apply (H4 k r g e' E K Pg Eg). unfold SearchSpec.Excluded in *.
    cbn [a_exclude a_ignore a_one_file_system a_hide set_depth] in *. destruct X as [X|[X|[X|[X|X]]]]; auto.
    exfalso. destruct X as (_ & B & Y). revert Y. apply (not_beyond _ (Z.of_nat (length names) - 1)); [exact In_|exact B|].
    subst names. rewrite app_length. lia.
  Qed.
  Lemma law_depth l1 l2 r1 r2 r : l1 <> [] -> l2 <> [] ->
    sensible_args (set_depth a l1) ess -> sensible_args (set_depth a l2) ess -> real_directories a ->
    Finds (set_depth a l1) r1 -> Finds (set_depth a l2) r2 -> Finds (set_depth a (l1 ++ l2)) r ->
    forall e, In e r <-> In e r1 \/ In e r2.
  Proof.
    intros N1 N2 S1 S2 Rd F1 F2 F e.
    assert (N : l1 ++ l2 <> []) by (intros E; apply app_eq_nil in E as [E _]; contradiction).
    assert (S : sensible_args (set_depth a (l1 ++ l2)) ess).
    { destruct S1 as (A & B & C & D & E & G), S2 as (_ & _ & C' & _). split; [exact A|]. split; [exact B|]. split; [apply Forall_app; now split|].
      split; [|split; [exact E|exact G]]. right. destruct D as [D|D]; [contradiction|exact D]. }
    rewrite (finds_reported _ ess _ Ho S1 Rd F1), (finds_reported _ ess _ Ho S2 Rd F2), (finds_reported _ ess _ Ho S Rd F).
    split.
    - intros [H P].
      assert (X : Reported (set_depth a l1) ess e \/ Reported (set_depth a l2) ess e); [|tauto].
      destruct H as (d & names & f & H1 & H2 & H3 & H4 & H5 & K). destruct (H5 N) as (x & Hx & I).
      assert (G : forall l', In x l' -> incl l' (l1 ++ l2) -> Reported (set_depth a l') ess e).
      { intros l' Hl Inc. assert (In_ : in_ranges l' (Z.of_nat (length names) - 1)) by (exists x; auto).
        exists d, names, f. split; [exact H1|]. split; [exact H2|]. split; [exact H3|]. split; [|split; [intros _; exact In_|exact K]].
        intros k r' g e' E Nk Pg Eg X. apply (H4 k r' g e' E Nk Pg Eg). unfold SearchSpec.Excluded in *.
        cbn [a_exclude a_ignore a_one_file_system a_hide set_depth] in *. destruct X as [X|[X|[X|[X|X]]]]; auto.
        exfalso. destruct X as (_ & B & Y). revert Y. apply (not_beyond _ (Z.of_nat (length names) - 1)); [exact In_|exact B|].
        subst names. rewrite app_length. lia. }
      apply in_app_or in Hx as [Hx|Hx]; [left|right]; (apply G; [exact Hx|]); [apply incl_appl|apply incl_appr]; apply incl_refl.
    - intros [[H P]|[H P]]; (split; [|exact P]); (eapply reported_depth; [exact N| | |exact H]); try assumption;
        intros n (x & Hx & I); exists x; (split; [apply in_or_app; auto|exact I]).
  Qed.

  Lemma law_stricter a' l l' : Stricter a a' -> sensible_args a ess -> sensible_args a' ess -> real_directories a ->
    Finds a l -> Finds a' l' -> incl l' l.
  Proof.
    intros St S S' Rd F F' e. assert (Rd' : real_directories a') by (destruct St; exact Rd).
    rewrite (finds_reported _ ess _ Ho S Rd F), (finds_reported _ ess _ Ho S' Rd' F'). intros [H P]. split; [|exact P].
    destruct St as [ex ig ofs hi I1 I2 I3 I4].
    destruct H as (d & names & f & H1 & H2 & H3 & H4 & H5 & K). exists d, names, f.
    split; [exact H1|]. split; [exact H2|]. split; [exact H3|]. split; [|split; [exact H5|exact K]].
    intros k r g e' E Nk Pg Eg X. apply (H4 k r g e' E Nk Pg Eg). unfold SearchSpec.Excluded in *. cbn [a_exclude a_ignore a_one_file_system a_hide].
    destruct X as [(s & X1 & X2)|[[X1 X2]|[[X1 X2]|[[X1 X2]|X]]]].
    - left. exists s. split; [now apply I1|exact X2].
    - right; left. split; [now apply I2|exact X2].
    - right; right; left. split; [now apply I3|exact X2].
    - do 3 right; left. split; [now apply I4|exact X2].
    - do 4 right. exact X.
  Qed.

  (** The place of an entry *)
  Lemma same_place d names f d' names' f' e : real_directories a -> In d (a_directories a) -> In d' (a_directories a) ->
    Place (contents cwd listing a d) names f -> Place (contents cwd listing a d') names' f' ->
    entry_at cwd device a d names f e -> entry_at cwd device a d' names' f' e ->
    start_path cwd (absolute_paths a) d' = start_path cwd (absolute_paths a) d /\ names' = names.
  Proof.
    intros Rd Hd Hd' P P' E E'. destruct (Rd d Hd) as [Np V], (Rd d' Hd') as [Np' V'].
    destruct (place_valid _ _ _ V P) as (_ & _ & O), (place_valid _ _ _ V' P') as (_ & _ & O').
    pose proof (place_nonempty _ _ _ P) as N. pose proof (place_nonempty _ _ _ P') as N'.
    destruct (entry_fields (start_dir cwd device (absolute_paths a) d) Np names (f_status f) e N O E) as (A1 & A2 & _).
    destruct (entry_fields (start_dir cwd device (absolute_paths a) d') Np' names' (f_status f') e N' O' E') as (B1 & B2 & _).
    split.
    - rewrite A1 in B1. unfold start_dir in B1. cbv zeta in B1. now injection B1 as -> _ _.
    - rewrite A2 in B2. symmetry. eapply join_inj; eauto.
  Qed.
  Lemma law_exclude x1 x2 l1 l2 l :
    sensible_args (set_exclude a x1) ess -> sensible_args (set_exclude a x2) ess -> real_directories a ->
    Finds (set_exclude a x1) l1 -> Finds (set_exclude a x2) l2 -> Finds (set_exclude a (x1 ++ x2)) l ->
    forall e, In e l <-> In e l1 /\ In e l2.
  Proof.
    intros S1 S2 Rd F1 F2 F e.
    assert (S : sensible_args (set_exclude a (x1 ++ x2)) ess).
    { destruct S1 as (A & B & C & D & E & G), S2 as (_ & _ & _ & _ & E' & _). split; [exact A|]. split; [exact B|]. split; [exact C|].
      split; [exact D|]. split; [apply Forall_app; now split|exact G]. }
    rewrite (finds_reported _ ess _ Ho S1 Rd F1), (finds_reported _ ess _ Ho S2 Rd F2), (finds_reported _ ess _ Ho S Rd F).
    split.
    - intros [(d & names & f & H1 & H2 & H3 & H4 & H5 & K) P].
      split; (split; [|exact P]); exists d, names, f; (split; [exact H1|]); (split; [exact H2|]); (split; [exact H3|]);
        (split; [|split; [exact H5|exact K]]); intros k r g e' E Nk Pg Eg X; apply (H4 k r g e' E Nk Pg Eg);
        (destruct X as [(s & X1 & X2)|X]; [left; exists s; split; [apply in_or_app; auto|exact X2]|right; exact X]).
    - intros [[(d & names & f & H1 & H2 & H3 & H4 & H5 & K) P] [(d' & names' & f' & H1' & H2' & H3' & H4' & _) _]].
      split; [|exact P]. exists d, names, f. split; [exact H1|]. split; [exact H2|]. split; [exact H3|].
      split; [|split; [exact H5|exact K]].
      destruct (same_place d names f d' names' f' e Rd H1 H1' H2 H2' H3 H3') as [Ed ->].
      intros k r g e' E Nk Pg Eg X.
      destruct X as [(s & X1 & X2)|X].
      + cbn [a_exclude set_exclude] in X1. apply in_app_or in X1 as [X1|X1].
        * apply (H4 k r g e' E Nk Pg Eg). left. now exists s.
        * apply (H4' k r g e' E Nk).
          -- change (Place (listing (start_path cwd (absolute_paths a) d')) k g). rewrite Ed. exact Pg.
          -- change (mk_entry (Start (start_path cwd (absolute_paths a) d') (abspath cwd (start_path cwd (absolute_paths a) d')) (device (start_path cwd (absolute_paths a) d')))
               (walk_relpath k) (f_status g) = Ok e'). rewrite Ed. exact Eg.
          -- left. now exists s.
      + apply (H4 k r g e' E Nk Pg Eg). right. exact X.
  Qed.
End Others.

(** ** The laws as they are stated in P_Law *)
Lemma and_tokens (o1 c1 o2 c2 : str) ts1 ts2 :
  [o1] ++ ts1 ++ [c1; o2] ++ ts2 ++ [c2] = (o1 :: ts1 ++ [c1]) ++ (o2 :: ts2 ++ [c2]) ++ [].
Proof. rewrite app_nil_r. cbn. now rewrite <- app_assoc. Qed.
Lemma not_tokens (n o c : str) ts : [n; o] ++ ts ++ [c] = (n :: o :: ts ++ [c]) ++ [].
Proof. now rewrite app_nil_r. Qed.
