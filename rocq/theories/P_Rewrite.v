(** Property C127: searches with equivalent arguments find the same. *)
From Coq Require Import List NArith ZArith Bool Permutation.
From Verif Require Import Py ExprSpec GrammarSpec TypeSpec WalkModel WalkSpec WalkRuns.
From Verif Require Import EntryModel TypeModel RegistryModel TestModel ArgumentsModel SearchModel SearchSpec SearchRuns LawProofs RewriteSpec RewriteProofs.
Import ListNotations.
Local Open Scope Z_scope.

Section Rewrite.
  (** Whatever the regular expressions, the times and the plugins are *)
  Variable R : Type.
  Variable rcompile : str -> res R.
  Variable rsearch : R -> str -> bool.
  Variable parse_time : str -> res Z.
  Variable debug : bool.
  Variable case : case_mode.
  Variable registered : list plugin.
  Variable init_plugin : str -> res unit.
  Variable reference_value : str * str -> str -> res value.
  Variable other : entry -> str -> option value.
  Variable plugin_value : entry -> str * str -> option value.
  Variable cwd : str.
  Variable device : str -> Z.
  Variable listing : str -> list file.
  Variable rendered : entry -> bool.
  Variable m : mode.
  Notation honest := (honest registered init_plugin other plugin_value).
  Notation sensible_args := (sensible_args R rcompile parse_time debug case registered init_plugin reference_value).
  Notation real_directories := (real_directories cwd listing).
  Notation Holds e s := (Holds R rcompile rsearch parse_time debug case registered init_plugin reference_value
    (attribute_value other plugin_value e) s).
  Notation excluded score a := (search_excluded R rcompile rsearch parse_time debug case registered init_plugin reference_value score other
    plugin_value (process_arguments a)).
  Notation matched score a := (search_matched R rcompile rsearch parse_time debug case registered init_plugin reference_value score other
    plugin_value (process_arguments a)).
  (** l is what a search with the arguments a has found when it has ended
      normally, with any number of processes, any schedule in which no
      process overlooks its work (see C76), and the tests sorted by any
      speed. *)
  Definition Finds (score : test R -> Z) (a : pargs) (l : list entry) : Prop :=
    exists jobs halt timeout roots ls s, (0 < jobs)%nat /\ search_roots cwd device listing (process_arguments a) = Ok roots /\
      WalkModel.run entry (excluded score a) (matched score a) rendered m jobs halt true true timeout (initial entry jobs roots) ls s /\
      main_ s = MPassed /\ l = results m s.
  Notation the_law law := (law R rcompile rsearch parse_time debug case registered init_plugin reference_value other
    plugin_value cwd device listing rendered m).

  (** Tests that are true together, the same tests for -e and the same
      directories in any order: the same results, each as often. *)
  Theorem C127_equivalent_partial : forall score1 score2 a ts1 ts2 ess1 ess2 x1 x2 ds1 ds2 l1 l2, honest ->
    sensible_args (search a ts1 x1 ds1) ess1 -> sensible_args (search a ts2 x2 ds2) ess2 ->
    real_directories (search a ts1 x1 ds1) ->
    Equivalent ess1 ess2 -> same_members x1 x2 -> Permutation ds1 ds2 ->
    Finds score1 (search a ts1 x1 ds1) l1 -> Finds score2 (search a ts2 x2 ds2) l2 -> Permutation l1 l2.
  Proof. exact (fun score1 score2 a ts1 ts2 ess1 ess2 x1 x2 ds1 ds2 l1 l2 Ho =>
    the_law equivalent_searches Ho score1 score2 a ts1 ts2 ess1 ess2 x1 x2 ds1 ds2 l1 l2). Qed.
  (** Each test may be replaced by one that is true of the same entries ... *)
  Theorem C127_replaced_partial : forall score1 score2 a f ts1 ts2 ess x ds l1 l2, honest ->
    sensible_args (search a ts1 x ds) ess -> sensible_args (search a ts2 x ds) (map (map (renamed f)) ess) ->
    real_directories (search a ts1 x ds) ->
    (forall t e, In t ts1 -> is_test t -> (Holds e t <-> Holds e (f t))) ->
    Finds score1 (search a ts1 x ds) l1 -> Finds score2 (search a ts2 x ds) l2 -> Permutation l1 l2.
  Proof. exact (fun score1 score2 a f ts1 ts2 ess x ds l1 l2 Ho =>
    the_law renamed_searches Ho score1 score2 a f ts1 ts2 ess x ds l1 l2). Qed.
  (** ... such as another way to write it. *)
  Theorem C127_written : forall t t' a o r v e, Writes t a o r v -> Writes t' a o r v -> (Holds e t <-> Holds e t').
  Proof.
    exact (fun t t' a o r v e W W' => conj
      (same_test R rcompile rsearch parse_time debug case registered init_plugin reference_value other plugin_value t t' a o r v e W W')
      (same_test R rcompile rsearch parse_time debug case registered init_plugin reference_value other plugin_value t' t a o r v e W' W)).
  Qed.
  (** not ( A or B ) is not ( A ) not ( B ). *)
  Theorem C127_de_morgan_partial : forall a ts1 ts2 ess1 ess2 x ds score1 score2 n o c n1 o1 c1 n2 o2 c2 r l1 l2, honest ->
    sensible_args (search a ts1 x ds) ess1 -> sensible_args (search a ts2 x ds) ess2 -> no_empty ess1 -> no_empty ess2 ->
    real_directories (search a ts1 x ds) ->
    is_NOT n -> is_open o -> is_close c -> is_NOT n1 -> is_open o1 -> is_close c1 -> is_NOT n2 -> is_open o2 -> is_close c2 -> is_OR r ->
    Finds score1 (search a ([n; o] ++ (ts1 ++ [r] ++ ts2) ++ [c]) x ds) l1 ->
    Finds score2 (search a (([n1; o1] ++ ts1 ++ [c1]) ++ ([n2; o2] ++ ts2 ++ [c2])) x ds) l2 -> Permutation l1 l2.
  Proof. exact (fun a ts1 ts2 ess1 ess2 x ds score1 score2 n o c n1 o1 c1 n2 o2 c2 r l1 l2 Ho S1 S2 N1 N2 Rd =>
    the_law de_morgan Ho a ts1 ts2 ess1 ess2 x ds S1 S2 N1 N2 Rd score1 score2 n o c n1 o1 c1 n2 o2 c2 r l1 l2). Qed.
  (** A or B is B or A. *)
  Theorem C127_swapped_partial : forall a ts1 ts2 ess1 ess2 x ds score1 score2 r r' l1 l2, honest ->
    sensible_args (search a ts1 x ds) ess1 -> sensible_args (search a ts2 x ds) ess2 -> no_empty ess1 -> no_empty ess2 ->
    real_directories (search a ts1 x ds) -> is_OR r -> is_OR r' ->
    Finds score1 (search a (ts1 ++ [r] ++ ts2) x ds) l1 -> Finds score2 (search a (ts2 ++ [r'] ++ ts1) x ds) l2 -> Permutation l1 l2.
  Proof. exact (fun a ts1 ts2 ess1 ess2 x ds score1 score2 r r' l1 l2 Ho S1 S2 N1 N2 Rd =>
    the_law swap_or Ho a ts1 ts2 ess1 ess2 x ds S1 S2 N1 N2 Rd score1 score2 r r' l1 l2). Qed.
  (** ( A or B ) C is ( A ) C or ( B ) C. *)
  Theorem C127_distributed_partial : forall a ts1 ts2 ess2 x ds ts3 es1 ess3 score1 score2 o2 c2 o3 c3 o c r r' l1 l2, honest ->
    sensible_args (search a ts1 x ds) [es1] -> sensible_args (search a ts2 x ds) ess2 -> sensible_args (search a ts3 x ds) ess3 ->
    no_empty ess2 -> no_empty ess3 -> real_directories (search a ts1 x ds) ->
    is_open o2 -> is_close c2 -> is_open o3 -> is_close c3 -> is_open o -> is_close c -> is_OR r -> is_OR r' ->
    Finds score1 (search a (([o] ++ (ts2 ++ [r] ++ ts3) ++ [c]) ++ ts1) x ds) l1 ->
    Finds score2 (search a ((([o2] ++ ts2 ++ [c2]) ++ ts1) ++ [r'] ++ ([o3] ++ ts3 ++ [c3]) ++ ts1) x ds) l2 -> Permutation l1 l2.
  Proof. exact (fun a ts1 ts2 ess2 x ds ts3 es1 ess3 score1 score2 o2 c2 o3 c3 o c r r' l1 l2 Ho S1 S2 S3 N2 N3 Rd =>
    the_law distribute Ho a ts1 ts2 [es1] ess2 x ds S1 S2 N2 Rd ts3 es1 ess3 S3 N3 eq_refl score1 score2 o2 c2 o3 c3 o c r r' l1 l2). Qed.
End Rewrite.
Print Assumptions C127_equivalent_partial.
Print Assumptions C127_replaced_partial.
Print Assumptions C127_written.
Print Assumptions C127_de_morgan_partial.
Print Assumptions C127_swapped_partial.
Print Assumptions C127_distributed_partial.

(** ff name%*.py size+5 src -e name=old ... finds src/a.py and src/lib/e.py;
    ff size+5 name%*.py src -e name=old -e name=old ... is equivalent, and so
    are not ( name%*.py or size+5 ) and not ( name%*.py ) not ( size+5 ). *)
Notation ex_finds := (Finds str ex_compile ex_re ex_time false CaseSmart ex_registered ex_init ex_reference ex_other ex_plugin
  ($"/home") ex_device ex_listing every Console ex_score).
Notation ex_sensible_args := (sensible_args str ex_compile ex_time false CaseSmart ex_registered ex_init ex_reference).
Definition ex_tests : list str := [$"name%*.py"; $"size+5"].
Definition ex_swapped : list str := [$"size+5"; $"name%*.py"].
Example C127_example :
  let x := [$"name=old"] in
  honest ex_registered ex_init ex_other ex_plugin /\
  ex_sensible_args (search ex_search ex_tests x [$"src"]) ex_meaning /\
  ex_sensible_args (search ex_search ex_swapped (x ++ x) [$"src"]) [[BTest ($"size+5"); BTest ($"name%*.py")]] /\
  Equivalent ex_meaning [[BTest ($"size+5"); BTest ($"name%*.py")]] /\ same_members x (x ++ x) /\
  real_directories ($"/home") ex_listing (search ex_search ex_tests x [$"src"]) /\
  (exists l, ex_finds (search ex_search ex_tests x [$"src"]) l /\ map e_path l = [$"src/a.py"; $"src/lib/e.py"]) /\
  (exists l, ex_finds (search ex_search ex_swapped (x ++ x) [$"src"]) l) /\
  ex_sensible_args (search ex_search [$"name%*.py"] x [$"src"]) [[BTest ($"name%*.py")]] /\
  ex_sensible_args (search ex_search [$"size+5"] x [$"src"]) [[BTest ($"size+5")]] /\
  (exists l, ex_finds (search ex_search [$"not"; $"("; $"name%*.py"; $"or"; $"size+5"; $")"] x [$"src"]) l) /\
  (exists l, ex_finds (search ex_search [$"not"; $"("; $"name%*.py"; $")"; $"not"; $"("; $"size+5"; $")"] x [$"src"]) l) /\
  Writes ($"size + 5") ($"size") ($"+") None ($"5") /\ Writes ($"size+5") ($"size") ($"+") None ($"5").
Proof.
  cbv zeta.
  assert (T1 : is_test ($"name%*.py")) by not_token. assert (T2 : is_test ($"size+5")) by not_token.
  destruct ex_sensible as (A & B & C & D & E & F).
  assert (G : forall ts ess x, Expression ts ess -> no_empty ess -> (forall t, In t ts -> is_test t -> t = $"name%*.py" \/ t = $"size+5") ->
    (forall t, In t x -> t = $"name=old") -> ex_sensible_args (search ex_search ts x [$"src"]) ess).
  { intros ts ess x H1 H2 H3 H4. split; [exact H1|]. split; [intros t Ht It; destruct (H3 t Ht It) as [->| ->]; [exact ex_legal_name|exact ex_legal_size]|].
    split; [exact C|]. split; [now right; right|]. split; [|exact F]. rewrite Forall_forall. intros t Ht. rewrite (H4 t Ht).
    now apply (proj1 (Forall_forall _ _) E); left. }
  assert (S1 : ex_sensible_args (search ex_search ex_tests [$"name=old"] [$"src"]) ex_meaning) by exact ex_sensible.
  assert (S2 : ex_sensible_args (search ex_search ex_swapped ([$"name=old"] ++ [$"name=old"]) [$"src"]) [[BTest ($"size+5"); BTest ($"name%*.py")]]).
  { apply G.
    - split; [|right; repeat constructor; discriminate]. apply Alts_one.
      apply (Run_op _ [_] _ [_] [_]); [now apply Op_test|]. apply (Run_op _ [_] _ [] []); [now apply Op_test|constructor].
    - repeat constructor; discriminate.
    - intros t [<-|[<-|[]]] _; auto.
    - intros t [<-|[<-|[]]]; reflexivity. }
  assert (X1 : forall t, is_test t -> Expression [t] [[BTest t]]).
  { intros t Ht. split; [|right; repeat constructor; discriminate]. apply Alts_one. apply (Run_op _ [_] _ [] []); [now apply Op_test|constructor]. }
  assert (N : forall t, no_empty [[BTest t]]) by (intros t; repeat constructor; discriminate).
  assert (HN : is_NOT ($"not")) by (repeat constructor). assert (HO : is_OR ($"or")) by (repeat constructor).
  assert (O : is_open ($"(")) by now left. assert (Cl : is_close ($")")) by now left.
  assert (Y : forall a ess, ex_sensible_args a ess -> real_directories ($"/home") ex_listing a -> exists l, ex_finds a l).
  { intros a ess Sa Ra. exact (finds_exists str ex_compile ex_re ex_time false CaseSmart ex_registered ex_init ex_reference ex_score ex_other ex_plugin
      ($"/home") ex_device ex_listing every Console a ess ex_honest Sa Ra). }
  split; [exact ex_honest|]. split; [exact S1|]. split; [exact S2|].
  split; [intros v; change (v ($"name%*.py") && (v ($"size+5") && true) || false = v ($"size+5") && (v ($"name%*.py") && true) || false); now destruct (v ($"name%*.py")), (v ($"size+5"))|].
  split; [split; intros t; cbn; tauto|]. split; [exact ex_real|].
  split; [destruct ex_run as (ls & s & Hr & M & Es); exists (results Console s); split; [|exact Es];
    exists 1%nat, false, 1, ex_roots, ls, s; split; [repeat constructor|]; split; [exact ex_roots_eq|]; split; [exact Hr|]; split; [exact M|reflexivity]|].
  split; [eapply Y; [exact S2|exact ex_real]|].
  split; [apply G; auto; [intros t [<-|[]]; auto|intros t [<-|[]]; reflexivity]|].
  split; [apply G; auto; [intros t [<-|[]]; auto|intros t [<-|[]]; reflexivity]|].
  split; [|split; [|split]].
  - eapply Y; [|exact ex_real]. apply G.
    + apply (expression_not [$"name%*.py"; $"or"; $"size+5"] ([[BTest ($"name%*.py")]] ++ [[BTest ($"size+5")]]) ($"not") ($"(") ($")")); auto.
      * apply (expression_or [$"name%*.py"] _ ($"or") [$"size+5"]); auto.
      * repeat constructor; discriminate.
    + repeat constructor; discriminate.
    + intros t [<-|[<-|[<-|[<-|[<-|[<-|[]]]]]]] It; auto; exfalso; destruct It as (I1 & I2 & I3 & I4 & I5); auto.
    + intros t [<-|[]]. reflexivity.
  - eapply Y; [|exact ex_real]. apply (G _ [[BGroup true [[BTest ($"name%*.py")]]; BGroup true [[BTest ($"size+5")]]]]).
    + split; [|right; repeat constructor; discriminate]. apply Alts_one.
      apply (Run_op _ ([$"not"; $"("] ++ [$"name%*.py"] ++ [$")"]) _ [_; _; _; _] [_]); [apply (Op_not_group _ _ _ [_]); auto; apply X1; auto|].
      apply (Run_op _ ([$"not"; $"("] ++ [$"size+5"] ++ [$")"]) _ [] []); [apply (Op_not_group _ _ _ [_]); auto; apply X1; auto|constructor].
    + repeat constructor; discriminate.
    + intros t [<-|[<-|[<-|[<-|[<-|[<-|[<-|[<-|[]]]]]]]]] It; auto; exfalso; destruct It as (I1 & I2 & I3 & I4 & I5); auto.
    + intros t [<-|[]]. reflexivity.
  - apply (Writes_intro [] ($"size") ($" ") ($"+") ($"+") None [] ($" ") ($"5") []);
    [chars | left; split; [discriminate|chars] | chars | constructor | exact ref_none | chars
    | split; [discriminate|cbn; intuition discriminate] | chars | exact I | cbn; discriminate
    | intros _ _; cbn; discriminate | intros _ _ ; cbn; intuition discriminate].
  - writes ($"size") ($"+") ($"5").
Qed.
