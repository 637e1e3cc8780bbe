(** A search with -I whose arguments, directories and ignore files meet the
    assumptions, and a run of it *)
From Coq Require Import List NArith ZArith Bool Lia.
From Verif Require Import Py PathSpec PathModel GlobModel GlobSpec IgnoreModel IgnoreSpec ExprSpec GrammarSpec TypeSpec WalkModel WalkSpec WalkRuns.
From Verif Require Import EntrySpec EntryModel TypeModel RegistryModel TestModel TestProofs ArgumentsModel SearchModel SearchSpec SearchTreeProofs SearchEndProofs SearchRuns
  CarryModel CarrySpec CarryProofs CarrySearchProofs.
Import ListNotations.
Local Open Scope nat_scope.

Definition cr_registered : list plugin := load_plugins [file_plugin; ignore_plugin].
Lemma cr_ready : ignore_ready cr_registered ex_init.
Proof. repeat split. Qed.
Lemma cr_honest : honest cr_registered ex_init ex_other ex_plugin.
Proof. split; [reflexivity|]. split; [reflexivity|]. split; discriminate. Qed.

(** Patterns for names *)
Definition a_pattern (negated directory : bool) (l : list item) : pattern :=
  {| p_negated := negated; p_leading := false; p_directory := directory; p_elems := [PName l] |}.
Definition lits (s : str) : list item := map ILit s.
(** "*.pyc" and "!keep.pyc", "build/"; "*.py" and "!e.py" in the directory
    lib, "*.o" in the root *)
Definition cr_table : list (str * list pattern) :=
  [($"/.gitignore", [a_pattern false false (IStar :: lits ($".o"))]);
   ($"/home/src/.gitignore", [a_pattern false false (IStar :: lits ($".pyc")); a_pattern true false (lits ($"keep.pyc")); a_pattern false true (lits ($"build"))]);
   ($"/home/src/lib/.gitignore", [a_pattern false false (IStar :: lits ($".py")); a_pattern true false (lits ($"e.py"))])].
Definition cr_lookup (p : str) : option (list pattern) := option_map snd (find (fun x => str_eqb (fst x) p) cr_table).
Definition cr_patterns (d : list str) (n : str) : option (list pattern) := cr_lookup (file_in d n).
(** The files have a comment and an empty line. *)
Definition cr_read (p : str) : option (list str) :=
  match cr_lookup p with Some ps => Some ($"# files" :: [] :: map pattern_text ps) | None => None end.
Definition cr_exists (p : str) : bool := str_eqb p ($"/.gitignore").
Definition cr_files : list str := [$".gitignore"].
Definition cr_tree : list file :=
  [a_file ($"a.py") 1; a_file ($"b.pyc") 1; a_file ($"keep.pyc") 1; a_file ($".gitignore") 1; a_file ($"x.o") 1;
   a_dir ($"build") [a_file ($"c.py") 1];
   a_dir ($"lib") [a_file ($".gitignore") 1; a_file ($"e.py") 1; a_file ($"f.py") 1]].
Definition cr_listing (d : str) : list file := if str_eqb d ($"src") then cr_tree else [].
Definition cr_comps (d : str) : list str := [$"home"; $"src"].
(** That of the root is found twice, "/".split("/") has two parts. *)
Definition cr_above (d : str) : list (list str * str) := [([], $".gitignore"); ([], $".gitignore")].
(** ff -I type=f src *)
Definition cr_search : pargs :=
  PArgs [$"type=f"] [$"src"] [] None true false false None ($"auto") false None None None [$"path"] None None false.
Definition cr_meaning : list (list bexp) := [[BTest ($"type=f")]].

Lemma cr_written f : written cr_patterns cr_read f.
Proof.
  destruct f as [d n]. unfold written, cr_patterns, cr_read. unfold cr_lookup, cr_table. cbn [find fst].
  repeat match goal with |- context [str_eqb ?x ?y] => destruct (str_eqb x y) end; cbn [option_map snd]; try reflexivity;
    (eexists; split; [reflexivity|]; split; [vm_compute; reflexivity|]);
    repeat (apply Forall_cons || apply Forall_nil);
    (split; [intros _; vm_compute; intuition discriminate|]; right; eexists; split; [reflexivity|]; split; [reflexivity|];
     split; [discriminate|]; split; [repeat constructor; vm_compute; intuition discriminate|exact I]).
Qed.
Lemma cr_legal : Legal str ex_compile ex_time false CaseSmart cr_registered ex_init ex_reference ($"type=f").
Proof.
  exists ($"type"), ($"="), None, ($"f"), ($"file", $"type"), TFileType. split; [writes ($"type") ($"=") ($"f")|].
  split; [split; vm_compute; reflexivity|]. apply testable_sensible, (sen_type _ _ _ _ _ ($"f") ($"file")). cbn. constructor.
Qed.
Lemma cr_sensible : sensible_args str ex_compile ex_time false CaseSmart cr_registered ex_init ex_reference cr_search cr_meaning.
Proof.
  assert (T1 : is_test ($"type=f")) by not_token.
  split.
  { split; [|right; repeat constructor; discriminate]. apply Alts_one.
    apply (Run_op _ [_] _ [] []); [now apply Op_test|constructor]. }
  split.
  { intros t [<-|[]] _. exact cr_legal. }
  split; [constructor|]. split; [now left|]. split; [constructor|]. intros _.
  apply (ignored_legal str ex_compile ex_time false CaseSmart cr_registered ex_init ex_reference cr_ready).
Qed.
Lemma cr_real : real_directories ($"/home") cr_listing cr_search.
Proof.
  intros d [<-|[]]. split; [discriminate|]. unfold contents.
  match goal with |- valid ?l => let l' := eval vm_compute in l in change l with l' end. validity.
Qed.
Inductive all_names (P : str -> Prop) : list file -> Prop :=
| all_names_nil : all_names P []
| all_names_cons n st k l : P n -> all_names P k -> all_names P l -> all_names P (File n st k :: l).
Lemma all_names_in P l : all_names P l -> forall f, In f l -> P (f_name f) /\ all_names P (f_kids f).
Proof. induction 1 as [|n st k l Hn Hk _ Hl IH]; intros f []; [subst f; now split|now apply IH]. Qed.
Lemma all_names_place P l names f : Place l names f -> all_names P l -> Forall P names /\ all_names P (f_kids f).
Proof.
  intros H A. induction H as [f Hf|names d f H IH _ Hf].
  - destruct (all_names_in _ _ A f Hf). split; [now constructor|assumption].
  - destruct IH as [I1 I2]. destruct (all_names_in _ _ I2 f Hf). split; [apply Forall_app; split; [assumption|now constructor]|assumption].
Qed.
Lemma cr_orderly : orderly_starts cr_files cr_patterns ($"/home") ex_device cr_listing cr_comps cr_above cr_read
  (full_parents cr_files cr_exists false ($"/home") cr_search) cr_search.
Proof.
  intros d [<-|[]]. split; [vm_compute; reflexivity|]. split; [vm_compute; reflexivity|].
  assert (C : Forall tree_component (cr_comps ($"src"))) by (repeat constructor; try discriminate; vm_compute; intuition discriminate).
  split; [exact C|]. split.
  { intros f [<-|[<-|[]]]; (split; [split; [discriminate|vm_compute; intuition discriminate]|split; [exists (cr_comps ($"src")); reflexivity|apply cr_written]]). }
  split.
  - intros names f H. refine (proj1 (all_names_place tree_component _ names f H _)).
    match goal with |- all_names _ ?l => let l' := eval vm_compute in l in change l with l' end.
    repeat constructor; try discriminate; vm_compute; intuition discriminate.
  - intros names f fs _ _. apply Forall_forall. intros g _. apply cr_written.
Qed.

Definition cr_excluded : carrier -> res bool := carry_excluded cr_read ex_plugin str ex_compile ex_re ex_time false CaseSmart cr_registered ex_init ex_reference
  ex_score ex_other (process_arguments cr_search).
Definition cr_matched : carrier -> res bool := carry_matched cr_read ex_plugin str ex_compile ex_re ex_time false CaseSmart cr_registered ex_init ex_reference
  ex_score ex_other (process_arguments cr_search).
Definition cr_every (c : carrier) : bool := every (fst c).
Definition cr_roots : list (node carrier) :=
  Eval vm_compute in match carry_roots cr_files ($"/home") ex_device cr_listing cr_exists false (process_arguments cr_search) with Ok l => l | Err _ => [] end.
Lemma cr_roots_eq : carry_roots cr_files ($"/home") ex_device cr_listing cr_exists false (process_arguments cr_search) = Ok cr_roots.
Proof. vm_compute. reflexivity. Qed.
Lemma cr_run : exists ls s, WalkModel.run carrier cr_excluded cr_matched cr_every Console 1 false true true 1 (initial carrier 1 cr_roots) ls s /\
  main_ s = MPassed /\ map (fun c => e_path (fst c)) (results Console s) = [$"src/a.py"; $"src/keep.pyc"; $"src/.gitignore"; $"src/lib/.gitignore"; $"src/lib/e.py"].
Proof.
  eexists. eexists. split.
  - check. take. repeat search_work. finish. check. take. repeat search_work. finish.
    check. wait 1%Z. empty. nothing. pass.
  - split; reflexivity.
Qed.
Lemma cr_lost : exists ls s, WalkModel.run carrier cr_excluded cr_matched cr_every Console 1 false false true 1 (initial carrier 1 cr_roots) ls s /\
  main_ s = MPassed /\ results Console s = [].
Proof.
  eexists. eexists. split.
  - check. wait 1%Z. empty. nothing. pass.
  - split; reflexivity.
Qed.
Lemma cr_refuted : exists roots pv ls s e, carry_roots cr_files ($"/home") ex_device cr_listing cr_exists false (process_arguments cr_search) = Ok roots /\
  ignore_values cr_files cr_patterns ($"/home") ex_device cr_listing cr_comps cr_above cr_search ex_plugin pv /\
  WalkModel.run carrier cr_excluded cr_matched cr_every Console 1 false false true 1 (initial carrier 1 roots) ls s /\
  main_ s = MPassed /\
  Reported str ex_compile ex_re ex_time false CaseSmart cr_registered ex_init ex_reference ex_other pv ($"/home") ex_device cr_listing
    cr_search cr_meaning e /\ processable Console every e /\ ~ In e (map fst (results Console s)).
Proof.
  destruct cr_run as (ls & s & R & M & E). destruct cr_lost as (ls' & s' & R' & M' & E').
  destruct (carry_sound cr_files cr_exists false cr_patterns cr_read str ex_compile ex_re ex_time false CaseSmart cr_registered ex_init ex_reference ex_score
    ex_other ex_plugin ($"/home") ex_device cr_listing cr_comps cr_above cr_search cr_meaning cr_honest cr_ready cr_sensible cr_real cr_orderly
    every Console 1 false true true 1%Z) as (roots & pv & Er & Hr & S).
  rewrite cr_roots_eq in Er. injection Er as <-. destruct (S ls s R) as [S1 _].
  destruct (results Console s) as [|c l]; [discriminate E|]. exists cr_roots, pv, ls', s', (fst c).
  split; [exact cr_roots_eq|]. split; [exact Hr|]. split; [exact R'|]. split; [exact M'|]. destruct (S1 c (or_introl eq_refl)) as [A B].
  split; [exact A|]. split; [exact B|]. rewrite E'. intros [].
Qed.
