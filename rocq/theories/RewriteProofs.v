(** Two searches with equivalent arguments find the same. *)
From Coq Require Import List NArith ZArith Bool Lia Permutation.
From Verif Require Import Py GrammarSpec DepthProofs TypeSpec WalkModel WalkSpec WalkProofs WalkInvProofs WalkStatusProofs.
From Verif Require ExprSpec ExprProofs.
From Verif Require Import EntryModel TypeModel RegistryModel TestModel ArgumentsModel ArgumentsSpec ArgumentsProofs SearchModel SearchSpec
  SearchTestProofs SearchProofs SearchTreeProofs SearchEndProofs LawProofs LocalProofs RewriteSpec.
Import ListNotations.
Local Open Scope Z_scope.

(** ** What the processes make of equal functions *)
Section Walk.
  Context {A : Type}.
  Variables x1 x2 m1 m2 : A -> res bool.
  Hypothesis Hx : forall a, x1 a = x2 a.
  Hypothesis Hm : forall a, m1 a = m2 a.
  Lemma pend_ext : forall n, pend_node x1 m1 n = pend_node x2 m2 n.
  Proof.
    fix IH 1. intros [a d l]. cbn [pend_node]. rewrite Hx, Hm. destruct (is_ok (x2 a) false); [|reflexivity]. f_equal.
    destruct d; [|reflexivity]. induction l as [|k l IHl]; [reflexivity|]. now rewrite IH, IHl.
  Qed.
  Lemma expected_ext roots : expected x1 m1 roots = expected x2 m2 roots.
  Proof.
    unfold expected. apply flat_map_ext. intros n. unfold pend_dir. apply flat_map_ext. exact pend_ext.
  Qed.
  Lemma expected_perm roots1 roots2 : Permutation roots1 roots2 -> Permutation (expected x1 m1 roots1) (expected x2 m2 roots2).
  Proof. intros P. rewrite expected_ext. now apply Permutation_flat_map. Qed.
End Walk.
Lemma results_total {A} (excluded matched : A -> res bool) rendered m jobs halt timeout roots ls s :
  (0 < jobs)%nat -> calm A excluded matched ->
  WalkModel.run A excluded matched rendered m jobs halt true true timeout (initial A jobs roots) ls s -> main_ s = MPassed ->
  Permutation (sinks rendered m (expected excluded matched roots)) (results m s).
Proof.
  intros J U R M. pose proof (passed_total _ _ _ _ _ _ _ _ _ _ _ _ J eq_refl U R M) as P. rewrite P.
  destruct (inv_moded _ _ _ _ _ _ _ _ _ _ _ _ R) as (_ & _ & M3 & M4 & M5). unfold finished, results.
  assert (O : outq s = []).
  { destruct m; try (apply M3; discriminate). apply (collected _ _ _ _ _ _ _ _ _ _ _ _ J eq_refl eq_refl R M). }
  rewrite O. cbn [concat]. rewrite app_nil_r.
  destruct m; try rewrite M4 by discriminate; try rewrite M5 by reflexivity; cbn [map app]; now rewrite ?app_nil_r.
Qed.

(** ** Renaming *)
Lemma renamed_true P f : forall e, True_of P (renamed f e) <-> True_of (fun t => P (f t)) e.
Proof.
  fix IH 1. intros [t|n alts]; [reflexivity|]. cbn [renamed True_of].
  assert (E : (fix any l := match l with
                   | [] => False
                   | es :: l => (fix all l := match l with [] => True | e :: l => True_of P e /\ all l end) es \/ any l
                   end) (map (map (renamed f)) alts) <->
              (fix any l := match l with
                   | [] => False
                   | es :: l => (fix all l := match l with [] => True | e :: l => True_of (fun t => P (f t)) e /\ all l end) es \/ any l
                   end) alts).
  { induction alts as [|es alts IHa]; [reflexivity|]. cbn [map]. rewrite IHa.
    assert (F : (fix all l := match l with [] => True | e :: l => True_of P e /\ all l end) (map (renamed f) es) <->
                (fix all l := match l with [] => True | e :: l => True_of (fun t => P (f t)) e /\ all l end) es).
    { clear IHa. induction es as [|e es IHe]; [reflexivity|]. cbn [map]. rewrite IHe, (IH e). reflexivity. }
    rewrite F. reflexivity. }
  destruct n; rewrite E; reflexivity.
Qed.
Lemma renamed_satisfied P f ess : Satisfied P (map (map (renamed f)) ess) <-> Satisfied (fun t => P (f t)) ess.
Proof. exact (renamed_true P f (BGroup false ess)). Qed.
Lemma satisfied_ext P Q ess : (forall t, In t (flat_map (flat_map tests_of) ess) -> (P t <-> Q t)) -> Satisfied P ess <-> Satisfied Q ess.
Proof.
  assert (X : forall e, (forall t, In t (tests_of e) -> (P t <-> Q t)) -> (True_of P e <-> True_of Q e)).
  { fix IH 1. intros [t|n alts] H; [apply H; now left|]. cbn [True_of tests_of] in *.
    assert (E : (fix any l := match l with
                   | [] => False
                   | es :: l => (fix all l := match l with [] => True | e :: l => True_of P e /\ all l end) es \/ any l
                   end) alts <->
              (fix any l := match l with
                   | [] => False
                   | es :: l => (fix all l := match l with [] => True | e :: l => True_of Q e /\ all l end) es \/ any l
                   end) alts).
    { induction alts as [|es alts IHa]; [reflexivity|]. cbn [flat_map] in H.
      rewrite IHa by (intros t Ht; apply H, in_or_app; now right).
      assert (F : (fix all l := match l with [] => True | e :: l => True_of P e /\ all l end) es <->
                  (fix all l := match l with [] => True | e :: l => True_of Q e /\ all l end) es).
      { assert (H' : forall t, In t (flat_map tests_of es) -> (P t <-> Q t)) by (intros t Ht; apply H, in_or_app; now left).
        clear IHa H. induction es as [|e es IHe]; [reflexivity|]. cbn [flat_map] in H'.
        rewrite IHe by (intros t Ht; apply H', in_or_app; now right).
        rewrite (IH e) by (intros t Ht; apply H', in_or_app; now left). reflexivity. }
      rewrite F. reflexivity. }
    destruct n; rewrite E; reflexivity. }
  intros H. exact (X (BGroup false ess) H).
Qed.
Lemma tests_renamed f : forall e, tests_of (renamed f e) = map f (tests_of e).
Proof.
  fix IH 1. intros [t|n alts]; [reflexivity|]. cbn [renamed tests_of].
  induction alts as [|es alts IHa]; [reflexivity|]. cbn [map flat_map]. rewrite map_app, IHa. f_equal.
  clear IHa. induction es as [|e es IHe]; [reflexivity|]. cbn [map flat_map]. now rewrite map_app, IHe, IH.
Qed.

Section Searches.
  Variable R : Type.
  Variable rcompile : str -> res R.
  Variable rsearch : R -> str -> bool.
  Variable parse_time : str -> res Z.
  Variable debug : bool.
  Variable case : case_mode.
  Variable registered : list plugin.
  Variable init_plugin : str -> res unit.
  Variable reference_value : str * str -> str -> res value.
  Variable other : entry -> str -> option value.
  Variable plugin_value : entry -> str * str -> option value.
  Variable cwd : str.
  Variable device : str -> Z.
  Variable listing : str -> list file.
  Variable rendered : entry -> bool.
  Variable m : mode.
  Notation honest := (honest registered init_plugin other plugin_value).
  Notation sensible_args := (sensible_args R rcompile parse_time debug case registered init_plugin reference_value).
  Notation real_directories := (real_directories cwd listing).
  Notation Legal := (Legal R rcompile parse_time debug case registered init_plugin reference_value).
  Notation Holds e s := (Holds R rcompile rsearch parse_time debug case registered init_plugin reference_value (attribute_value other plugin_value e) s).
  Notation Finds score := (Finds R rcompile rsearch parse_time debug case registered init_plugin reference_value score other plugin_value
    cwd device listing rendered m).
  Notation Excl := (Excl R rcompile rsearch parse_time debug case registered init_plugin reference_value other plugin_value).
  Notation Hit := (Hit R rcompile rsearch parse_time debug case registered init_plugin reference_value other plugin_value).
  Hypothesis Ho : honest.

  Lemma valued e : exists v, forall t, Legal t -> (v t = true <-> Holds e t).
  Proof.
    destruct Ho as (H1 & H2 & H3 & H4).
    exists (value_of R rcompile rsearch parse_time debug case registered init_plugin reference_value (e_name e)
                   (str_eqb (type_of_mode (st_mode (e_status e))) ($"directory")) (attribute_value other plugin_value e)).
    intros t L.
    destruct (legal_test R rcompile rsearch parse_time debug case registered init_plugin reference_value (e_name e)
                  (str_eqb (type_of_mode (st_mode (e_status e))) ($"directory")) (attribute_value other plugin_value e)
                  eq_refl (type_of_mode (st_mode (e_status e))) eq_refl (str_eqb_eq _ _)
                  (typed registered other plugin_value H1 H3 H4 e) t L) as (x & b & E & T & B & _).
    rewrite <- (truth_value R rcompile rsearch parse_time debug case registered init_plugin reference_value (e_name e)
      (str_eqb (type_of_mode (st_mode (e_status e))) ($"directory")) (attribute_value other plugin_value e) t b); eauto.
  Qed.
  Lemma legal_tests a ess t : sensible_args a ess -> In t (flat_map (flat_map tests_of) ess) -> Legal t.
  Proof.
    intros ((A & _) & L & _) H. apply (proj2 (proj2 (grammar_tests no_empty)) _ _ A) in H as [H1 H2]. now apply L.
  Qed.
  Lemma equivalent_satisfied a1 a2 ess1 ess2 e : sensible_args a1 ess1 -> sensible_args a2 ess2 -> Equivalent ess1 ess2 ->
    Satisfied (fun s => Holds e s) ess1 <-> Satisfied (fun s => Holds e s) ess2.
  Proof.
    intros S1 S2 E. destruct (valued e) as (v & V).
    rewrite <- (satisfied_iff _ v ess1), <- (satisfied_iff _ v ess2).
    - now rewrite (E v).
    - intros t Ht. apply V. eapply legal_tests; [exact S2|exact Ht].
    - intros t Ht. apply V. eapply legal_tests; [exact S1|exact Ht].
  Qed.
  (** The general law *)
  Lemma same_searches score1 score2 a1 a2 ess1 ess2 l1 l2 : sensible_args a1 ess1 -> sensible_args a2 ess2 ->
    real_directories a1 -> real_directories a2 ->
    (forall e, Excl a1 e <-> Excl a2 e) -> (forall e, Hit a1 ess1 e <-> Hit a2 ess2 e) ->
    absolute_paths a1 = absolute_paths a2 -> Permutation (a_directories a1) (a_directories a2) ->
    Finds score1 a1 l1 -> Finds score2 a2 l2 -> Permutation l1 l2.
  Proof.
    intros S1 S2 D1 D2 X H Ab P (j1 & h1 & t1 & r1 & ls1 & s1 & J1 & E1 & R1 & M1 & ->) (j2 & h2 & t2 & r2 & ls2 & s2 & J2 & E2 & R2 & M2 & ->).
    pose proof (search_calm R rcompile rsearch parse_time debug case registered init_plugin reference_value score1 other plugin_value a1 ess1 Ho S1) as C1.
    pose proof (search_calm R rcompile rsearch parse_time debug case registered init_plugin reference_value score2 other plugin_value a2 ess2 Ho S2) as C2.
    rewrite <- (results_total _ _ _ _ _ _ _ _ _ _ J1 C1 R1 M1), <- (results_total _ _ _ _ _ _ _ _ _ _ J2 C2 R2 M2).
    unfold sinks. apply Permutation_flat_map. apply expected_perm.
    - intros e.
      destruct (excluded_excl R rcompile rsearch parse_time debug case registered init_plugin reference_value score1 other plugin_value a1 ess1 Ho S1 e) as (c1 & -> & B1).
      destruct (excluded_excl R rcompile rsearch parse_time debug case registered init_plugin reference_value score2 other plugin_value a2 ess2 Ho S2 e) as (c2 & -> & B2).
      f_equal. apply eq_true_iff_eq. rewrite B1, B2. apply X.
    - intros e.
      destruct (matched_hit R rcompile rsearch parse_time debug case registered init_plugin reference_value score1 other plugin_value a1 ess1 Ho S1 e) as (c1 & -> & B1).
      destruct (matched_hit R rcompile rsearch parse_time debug case registered init_plugin reference_value score2 other plugin_value a2 ess2 Ho S2 e) as (c2 & -> & B2).
      f_equal. apply eq_true_iff_eq. rewrite B1, B2. apply H.
    - clear -E1 E2 P Ab. unfold search_roots in E1, E2. rewrite process_absolute, process_dirs in E1, E2. rewrite Ab in E1.
      set (ab := absolute_paths a2) in *. clearbody ab. revert r1 r2 E1 E2.
      induction P as [|d k1 k2 P IH|d d' k|k1 k2 k3 P1 IH1 P2 IH2]; intros r1 r2 E1 E2; cbn [scan_starts] in E1, E2.
      + injection E1 as <-. injection E2 as <-. constructor.
      + destruct (scan_files _ _ _) as [n|]; [|discriminate]. cbn [bindr] in E1, E2.
        destruct (scan_starts cwd device listing ab k1) as [q1|]; [|discriminate].
        destruct (scan_starts cwd device listing ab k2) as [q2|]; [|discriminate].
        cbn [bindr] in E1, E2. injection E1 as <-. injection E2 as <-. constructor. now apply IH.
      + destruct (scan_files (start_dir cwd device ab d) _ _) as [n|]; [|cbn [bindr] in *; destruct (scan_files _ _ _); discriminate].
        destruct (scan_files (start_dir cwd device ab d') _ _) as [n'|]; [|discriminate]. cbn [bindr] in E1, E2.
        destruct (scan_starts cwd device listing ab k) as [q|]; [|discriminate].
        cbn [bindr] in E1, E2. injection E1 as <-. injection E2 as <-. constructor.
      + assert (K : exists q, scan_starts cwd device listing ab k2 = Ok q).
        { clear -E1 P1. apply Permutation_sym in P1. revert r1 E1.
          assert (Q : forall k r, scan_starts cwd device listing ab k = Ok r <-> Forall2 (fun d n => exists l,
             scan_files (start_dir cwd device ab d) [] (listing (start_path cwd ab d)) = Ok l /\ n = start_node (start_dir cwd device ab d) l) k r).
          { induction k as [|d k IH]; intros r; cbn [scan_starts].
            - split; [intros E; injection E as <-; constructor|intros F; inversion F; reflexivity].
            - split.
              + destruct (scan_files _ _ _) as [n|] eqn:En; [|discriminate]. cbn [bindr].
                destruct (scan_starts cwd device listing ab k) as [q|] eqn:Eq; [|discriminate]. cbn [bindr]. intros E. injection E as <-.
                constructor; [eauto|]. now apply IH.
              + intros F. inversion F as [|? ? ? q (n & En & ->) Fq]; subst. rewrite En. cbn [bindr]. apply IH in Fq. rewrite Fq. reflexivity. }
          intros r1 E1. apply Q in E1. apply Permutation_sym in P1.
          assert (T : Forall (fun d => exists l, scan_files (start_dir cwd device ab d) [] (listing (start_path cwd ab d)) = Ok l) k2).
          { rewrite Forall_forall. intros d Hd. apply (Permutation_in _ (Permutation_sym P1)) in Hd.
            clear -E1 Hd. induction E1 as [|d' n k r (l & El & _) _ IH]; [destruct Hd|]. destruct Hd as [->|Hd]; eauto. }
          clear -T Q. induction T as [|d k (l & El) _ (q & IH)]; [exists []; reflexivity|].
          cbn [scan_starts]. rewrite El. cbn [bindr]. rewrite IH. cbn [bindr]. eauto. }
        destruct K as (q & K). etransitivity; [eapply IH1|eapply IH2]; eassumption.
  Qed.

  Lemma same_excl a ts1 ts2 x1 x2 ds1 ds2 e : same_members x1 x2 -> Excl (search a ts1 x1 ds1) e <-> Excl (search a ts2 x2 ds2) e.
  Proof.
    intros [I1 I2]. unfold SearchProofs.Excl. cbn [search a_exclude a_ignore a_one_file_system a_hide].
    assert (E : (exists s, In s x1 /\ Holds e s) <-> (exists s, In s x2 /\ Holds e s)).
    { split; intros (s & Hs & K); exists s; auto. }
    rewrite E. reflexivity.
  Qed.
  Lemma equivalent_searches score1 score2 a ts1 ts2 ess1 ess2 x1 x2 ds1 ds2 l1 l2 :
    sensible_args (search a ts1 x1 ds1) ess1 -> sensible_args (search a ts2 x2 ds2) ess2 ->
    real_directories (search a ts1 x1 ds1) ->
    Equivalent ess1 ess2 -> same_members x1 x2 -> Permutation ds1 ds2 ->
    Finds score1 (search a ts1 x1 ds1) l1 -> Finds score2 (search a ts2 x2 ds2) l2 -> Permutation l1 l2.
  Proof.
    intros S1 S2 D E X P. apply (same_searches score1 score2 _ _ ess1 ess2); auto.
    - intros d Hd. apply (D d). cbn [search a_directories] in *. eapply Permutation_in; [apply Permutation_sym, P|exact Hd].
    - intros e. now apply same_excl.
    - intros e. unfold SearchProofs.Hit. rewrite (equivalent_satisfied _ _ _ _ e S1 S2 E). reflexivity.
  Qed.
  Lemma renamed_searches score1 score2 a f ts1 ts2 ess x ds l1 l2 :
    sensible_args (search a ts1 x ds) ess -> sensible_args (search a ts2 x ds) (map (map (renamed f)) ess) ->
    real_directories (search a ts1 x ds) ->
    (forall t e, In t ts1 -> is_test t -> (Holds e t <-> Holds e (f t))) ->
    Finds score1 (search a ts1 x ds) l1 -> Finds score2 (search a ts2 x ds) l2 -> Permutation l1 l2.
  Proof.
    intros S1 S2 D E. eapply (same_searches score1 score2 _ _ ess); eauto.
    - intros e. apply same_excl. split; apply incl_refl.
    - intros e. unfold SearchProofs.Hit. rewrite renamed_satisfied.
      assert (K : Satisfied (fun s => Holds e s) ess <-> Satisfied (fun s => Holds e (f s)) ess).
      { apply satisfied_ext. intros t Ht. destruct S1 as ((A & _) & _).
        apply (proj2 (proj2 (grammar_tests no_empty)) _ _ A) in Ht as [H1 H2]. now apply E. }
      rewrite K. reflexivity.
  Qed.
  (** Two texts of the same test *)
  Lemma same_test t t' a o r v e : ExprSpec.Writes t a o r v -> ExprSpec.Writes t' a o r v -> Holds e t -> Holds e t'.
  Proof.
    intros W W' (a1 & o1 & r1 & v1 & at_ & ty_ & x & W1 & K). 
    apply ExprProofs.split_writes in W, W1. rewrite W in W1. injection W1 as <- <- <- <-.
    exists a, o, r, v, at_, ty_, x. split; [exact W'|exact K].
  Qed.
  (** De Morgan, and the order of alternatives and of conditions *)
  Section Tokens.
    Variable a : pargs.
    Variables (ts1 ts2 : list str) (ess1 ess2 : list (list bexp)) (x ds : list str).
    Hypothesis S1 : sensible_args (search a ts1 x ds) ess1.
    Hypothesis S2 : sensible_args (search a ts2 x ds) ess2.
    Hypothesis N1 : no_empty ess1.
    Hypothesis N2 : no_empty ess2.
    Hypothesis Rd : real_directories (search a ts1 x ds).
    Lemma sensible_with ts ess : Expression ts ess -> no_empty ess -> (forall t, In t ts -> is_test t -> In t ts1 \/ In t ts2) ->
      sensible_args (search a ts x ds) ess.
    Proof.
      intros E N L. destruct S1 as (_ & L1 & B & _ & C & D), S2 as (_ & L2 & _).
      split; [exact E|]. split; [intros t Ht It; destruct (L t Ht It); auto|]. split; [exact B|].
      split; [now right; right|]. split; [exact C|exact D].
    Qed.
    Lemma or_parts o t : is_OR o -> In t (ts1 ++ o :: ts2) -> is_test t -> In t ts1 \/ In t ts2.
    Proof. intros O H It. apply in_app_or in H as [H|[<-|H]]; auto. now destruct It as (_ & _ & _ & K & _). Qed.
    Lemma de_morgan score1 score2 n o c n1 o1 c1 n2 o2 c2 r l1 l2 :
      is_NOT n -> is_open o -> is_close c -> is_NOT n1 -> is_open o1 -> is_close c1 -> is_NOT n2 -> is_open o2 -> is_close c2 -> is_OR r ->
      Finds score1 (search a (n :: o :: (ts1 ++ r :: ts2) ++ [c]) x ds) l1 ->
      Finds score2 (search a ((n1 :: o1 :: ts1 ++ [c1]) ++ (n2 :: o2 :: ts2 ++ [c2])) x ds) l2 -> Permutation l1 l2.
    Proof.
      intros Hn Hp Hc Hn1 Hp1 Hc1 Hn2 Hp2 Hc2 Hr.
      assert (E1 : Expression (n :: o :: (ts1 ++ r :: ts2) ++ [c]) [[BGroup true (ess1 ++ ess2)]]).
      { rewrite <- (app_nil_r (n :: o :: (ts1 ++ r :: ts2) ++ [c])). apply expression_not; auto.
        - apply expression_or; auto; [apply S1|apply S2].
        - apply Forall_app. now split. }
      assert (E2 : Expression ((n1 :: o1 :: ts1 ++ [c1]) ++ (n2 :: o2 :: ts2 ++ [c2])) [[BGroup true ess1; BGroup true ess2]]).
      { split; [|right; constructor; [discriminate|constructor]]. constructor.
        destruct S1 as ((A1 & _) & _), S2 as ((A2 & _) & _).
        apply Run_op; [now apply Op_not_group|]. rewrite <- (app_nil_r (n2 :: o2 :: ts2 ++ [c2])).
        apply Run_op; [now apply Op_not_group|constructor]. }
      assert (K : forall t, is_test t -> forall p q s, is_NOT p -> is_open q -> is_close s -> forall k, In t (p :: q :: k ++ [s]) -> In t k).
      { intros t It p q s Hp' Hq Hs k [<-|[<-|H]].
        - now destruct It as (_ & _ & _ & _ & X).
        - now destruct It as (X & _).
        - apply in_app_or in H as [H|[<-|[]]]; [exact H|]. now destruct It as (_ & X & _). }
      intros F1 F2. eapply (equivalent_searches score1 score2 a); [| | | | | |exact F1|exact F2].
      - apply (sensible_with _ _ E1); [repeat constructor; discriminate|].
        intros t Ht It. apply (or_parts r t Hr); [|exact It]. exact (K t It n o c Hn Hp Hc _ Ht).
      - apply (sensible_with _ _ E2); [repeat constructor; discriminate|].
        intros t Ht It. apply in_app_or in Ht as [Ht|Ht]; [left; exact (K t It n1 o1 c1 Hn1 Hp1 Hc1 _ Ht)|right; exact (K t It n2 o2 c2 Hn2 Hp2 Hc2 _ Ht)].
      - exact Rd.
      - intros v. unfold denote_alts. cbn [existsb forallb denote]. rewrite !orb_false_r, !andb_true_r, existsb_app.
        destruct (existsb _ ess1), (existsb _ ess2); reflexivity.
      - split; apply incl_refl.
      - reflexivity.
    Qed.
    Lemma swap_or score1 score2 r r' l1 l2 : is_OR r -> is_OR r' ->
      Finds score1 (search a (ts1 ++ r :: ts2) x ds) l1 -> Finds score2 (search a (ts2 ++ r' :: ts1) x ds) l2 -> Permutation l1 l2.
    Proof.
      intros Hr Hr' F1 F2. eapply (equivalent_searches score1 score2 a); [| | | | | |exact F1|exact F2].
      - apply (sensible_with _ (ess1 ++ ess2)).
        + apply expression_or; auto; [apply S1|apply S2].
        + apply Forall_app. now split.
        + intros t. now apply or_parts.
      - apply (sensible_with _ (ess2 ++ ess1)).
        + apply expression_or; auto; [apply S2|apply S1].
        + apply Forall_app. now split.
        + intros t H It. apply in_app_or in H as [H|[<-|H]]; auto. now destruct It as (_ & _ & _ & X & _).
      - exact Rd.
      - intros v. unfold denote_alts. rewrite !existsb_app. apply orb_comm.
      - split; apply incl_refl.
      - reflexivity.
    Qed.
    (** ts1 ( ts2 or ts3 ) *)
    Variables (ts3 : list str) (es1 : list bexp) (ess3 : list (list bexp)).
    Hypothesis S3 : sensible_args (search a ts3 x ds) ess3.
    Hypothesis N3 : no_empty ess3.
    Hypothesis One : ess1 = [es1].
    Lemma distribute score1 score2 o2 c2 o3 c3 o c r r' l1 l2 : is_open o2 -> is_close c2 -> is_open o3 -> is_close c3 -> is_open o -> is_close c ->
      is_OR r -> is_OR r' ->
      Finds score1 (search a ((o :: (ts2 ++ r :: ts3) ++ [c]) ++ ts1) x ds) l1 ->
      Finds score2 (search a (((o2 :: ts2 ++ [c2]) ++ ts1) ++ r' :: (o3 :: ts3 ++ [c3]) ++ ts1) x ds) l2 -> Permutation l1 l2.
    Proof.
      intros Ho2 Hc2 Ho3 Hc3 Hop Hc Hr Hr' F1 F2.
      destruct S1 as ((A1 & _) & L1 & _), S2 as ((A2 & _) & L2 & _), S3 as ((A3 & _) & L3 & _).
      rewrite One in A1. assert (A : GrammarSpec.Run no_empty ts1 es1) by (inversion A1 as [? ? X|? ? ? ? ? ? ? X]; [exact X|inversion X]).
      assert (T : forall t, In t ts1 \/ In t ts2 \/ In t ts3 -> is_test t -> Legal t) by (intros t [H|[H|H]]; auto).
      assert (G : forall ts ess, Expression ts ess -> no_empty ess ->
        (forall t, In t ts -> is_test t -> In t ts1 \/ In t ts2 \/ In t ts3) -> sensible_args (search a ts x ds) ess).
      { intros ts ess E N L. destruct S1 as (_ & _ & B & _ & C & D).
        split; [exact E|]. split; [intros t Ht It; apply T; auto|]. split; [exact B|].
        split; [now right; right|]. split; [exact C|exact D]. }
      assert (Kb : forall t, is_test t -> forall q s, is_open q -> is_close s -> forall k, In t (q :: k ++ [s]) -> In t k).
      { intros t It q s Hq Hs k [<-|H].
        - now destruct It as (X & _).
        - apply in_app_or in H as [H|[<-|[]]]; [exact H|]. now destruct It as (_ & X & _). }
      assert (Ko : forall t, is_test t -> forall q, is_OR q -> forall k k', In t (k ++ q :: k') -> In t k \/ In t k').
      { intros t It q Hq k k' H. apply in_app_or in H as [H|[<-|H]]; auto. now destruct It as (_ & _ & _ & X & _). }
      eapply (equivalent_searches score1 score2 a); [| | | | | |exact F1|exact F2].
      - apply (G _ [BGroup false (ess2 ++ ess3) :: es1]).
        + split; [|right; repeat constructor; discriminate]. constructor. apply Run_op; [|exact A].
          apply Op_group; auto; [now apply alts_or|]. apply Forall_app. now split.
        + repeat constructor; discriminate.
        + intros t Ht It. apply in_app_or in Ht as [Ht|Ht]; [|now left]. apply (Kb t It o c Hop Hc) in Ht.
          apply (Ko t It r Hr) in Ht. tauto.
      - apply (G _ ([BGroup false ess2 :: es1] ++ [BGroup false ess3 :: es1])).
        + apply expression_or; auto; try (repeat constructor; discriminate);
            (split; [|right; repeat constructor; discriminate]); constructor; (apply Run_op; [|exact A]); now apply Op_group.
        + repeat constructor; discriminate.
        + intros t Ht It. apply (Ko t It r' Hr') in Ht as [Ht|Ht]; apply in_app_or in Ht as [Ht|Ht]; auto.
          * apply (Kb t It o2 c2 Ho2 Hc2) in Ht. auto.
          * apply (Kb t It o3 c3 Ho3 Hc3) in Ht. auto.
      - exact Rd.
      - intros v. unfold denote_alts. cbn [app existsb forallb denote]. rewrite !xorb_false_l, existsb_app.
        destruct (existsb _ ess2), (existsb _ ess3), (forallb _ es1); reflexivity.
      - split; apply incl_refl.
      - reflexivity.
    Qed.
  End Tokens.
End Searches.
