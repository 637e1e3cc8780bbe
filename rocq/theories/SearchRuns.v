(** A search whose arguments, directory and plugins meet the assumptions, and
    runs of it *)
From Coq Require Import List NArith ZArith Bool Lia.
From Verif Require Import Py PathSpec EntrySpec ExprSpec GrammarSpec GlobSpec TypeSpec ArgumentsSpec WalkModel WalkSpec WalkProofs WalkRuns.
From Verif Require Import PathModel EntryModel TypeModel RegistryModel TestModel TestProofs ArgumentsModel SearchModel SearchSpec SearchEndProofs.
Import ListNotations.
Local Open Scope Z_scope.

(** Regular expressions without special characters, no other plugins *)
Definition ex_registered : list plugin := load_plugins [file_plugin].
Definition ex_init (p : str) : res unit := Ok tt.
Definition ex_compile (s : str) : res str := Ok s.
Definition ex_re (r s : str) : bool := is_sub r s.
Definition ex_time (s : str) : res Z := Err ValueError.
(** The size of src/b.py *)
Definition ex_reference (a : str * str) (f : str) : res value :=
  if str_eqb (snd a) ($"size") && str_eqb f ($"src/b.py") then Ok (VInt 3) else Err KeyErr.
Definition ex_score (t : test str) : Z := 0.
Definition ex_other (e : entry) (n : str) : option value := None.
Definition ex_plugin (e : entry) (a : str * str) : option value := None.
Definition ex_device (d : str) : Z := 1.
Definition a_file (n : str) (size : Z) : file := File n (Status 33188 size 1) [].
Definition a_dir (n : str) (l : list file) : file := File n (Status 16877 4096 1) l.
Definition ex_listing (d : str) : list file :=
  if str_eqb d ($"src") then
    [a_file ($"a.py") 10; a_file ($"b.py") 3; a_dir ($"old") [a_file ($"c.py") 10];
     a_dir ($".git") [a_file ($"d.py") 10];
     a_dir ($"lib") [a_file ($"e.py") 12; a_file ($"README") 12; a_dir ($"deep") [a_file ($"f.py") 10]]]
  else [].
(** ff name%*.py size+5 src -e name=old -H --xdev -d 0-1 *)
Definition ex_search : pargs :=
  PArgs [$"name%*.py"; $"size+5"] [$"src"] [$"name=old"] (Some [(0, Some 1)]) false true true
    None ($"auto") false None None None [$"path"] None None false.
Definition ex_meaning : list (list bexp) := [[BTest ($"name%*.py"); BTest ($"size+5")]].

Lemma ex_honest : honest ex_registered ex_init ex_other ex_plugin.
Proof. split; [reflexivity|]. split; [reflexivity|]. split; discriminate. Qed.

Lemma spelled_length W t : spelled W t -> length W = length t.
Proof. intros H. induction H; cbn; congruence. Qed.
Ltac not_token :=
  unfold is_open, is_close, is_AND, is_OR, is_NOT;
  repeat split; intros H; (destruct H; discriminate) || (apply spelled_length in H; discriminate H).
Ltac chars := let c := fresh in let H := fresh in intros c H; cbn in H; intuition (subst; reflexivity).
Ltac writes a o v :=
  apply (Writes_intro [] a [] o o None [] [] v []);
  [chars | left; split; [discriminate|chars] | chars | constructor | constructor | chars
  | split; [discriminate|cbn; intuition discriminate] | chars | exact I | cbn; discriminate
  | intros _ _; cbn; discriminate | intros _ _ _; cbn; discriminate].
Definition ex_py : pattern := {| p_negated := false; p_leading := false; p_directory := false;
  p_elems := [PName [IStar; ILit 46%N; ILit 112%N; ILit 121%N]] |}.
Lemma ex_legal_name : Legal str ex_compile ex_time false CaseSmart ex_registered ex_init ex_reference ($"name%*.py").
Proof.
  exists ($"name"), ($"%"), None, ($"*.py"), ($"file", $"name"), TString. split; [writes ($"name") ($"%") ($"*.py")|].
  split; [split; vm_compute; reflexivity|].
  apply testable_sensible, (sen_glob _ _ _ _ _ TString ($"*.py") (lower ($"*.py")) ex_py [IStar; ILit 46%N; ILit 112%N; ILit 121%N]).
  - now left.
  - apply folded_yes. right. split; [reflexivity|]. intros c Hc U. unfold upper_case in U.
    assert (X : (c < 65)%N \/ (90 < c < 192)%N) by (cbn in Hc; repeat destruct Hc as [<-|Hc]; [lia..|destruct Hc]). lia.
  - vm_compute. reflexivity.
  - split; [|split]; [|intros _; cbn; intuition discriminate|reflexivity]. split; [reflexivity|split; [reflexivity|]].
    split; [discriminate|]. split; [|exact I]. repeat constructor; cbn; intuition discriminate.
Qed.
Lemma ex_legal_size : Legal str ex_compile ex_time false CaseSmart ex_registered ex_init ex_reference ($"size+5").
Proof.
  exists ($"size"), ($"+"), None, ($"5"), ($"file", $"size"), TSize. split; [writes ($"size") ($"+") ($"5")|].
  split; [split; vm_compute; reflexivity|].
  apply testable_sensible, (sen_number _ _ _ _ _ TSize ($"+") ($"5") 5); [cbn; auto|cbn; auto|vm_compute; reflexivity].
Qed.
Lemma ex_legal_old : Legal str ex_compile ex_time false CaseSmart ex_registered ex_init ex_reference ($"name=old").
Proof.
  exists ($"name"), ($"="), None, ($"old"), ($"file", $"name"), TString. split; [writes ($"name") ($"=") ($"old")|].
  split; [split; vm_compute; reflexivity|]. apply testable_sensible, sen_string; cbn; auto.
Qed.
(** A pattern for the path and a reference *)
Definition ex_deep : pattern := {| p_negated := false; p_leading := false; p_directory := false;
  p_elems := [PName [ILit 115%N; IStar]; PDeep; PName [IStar; ILit 46%N; ILit 112%N; ILit 121%N]] |}.
Lemma ex_deep_ok : path_glob ex_deep.
Proof.
  split; [intros _; cbn; intuition discriminate|]. left. split; [right; cbn; lia|]. split; [|split; discriminate].
  split; [|split; [|exact I]].
  - split; [discriminate|]. split; [repeat constructor; cbn; intuition discriminate|exact I].
  - split; [discriminate|]. split; [repeat constructor; cbn; intuition discriminate|exact I].
Qed.
Lemma ex_writes_path : Writes ($"path%s*/**/*.py") ($"path") ($"%") None ($"s*/**/*.py").
Proof. writes ($"path") ($"%") ($"s*/**/*.py"). Qed.
Lemma ex_plain v : Forall (fun c => (c < 65 \/ 90 < c < 192)%N) v -> Folded CaseSmart v v (lower v).
Proof.
  intros F. apply folded_yes. right. split; [reflexivity|]. intros c Hc U. unfold upper_case in U.
  rewrite Forall_forall in F. specialize (F c Hc). cbn beta in F. clear -F U. lia.
Qed.
Lemma ex_legal_path : Legal str ex_compile ex_time false CaseSmart ex_registered ex_init ex_reference ($"path%s*/**/*.py").
Proof.
  exists ($"path"), ($"%"), None, ($"s*/**/*.py"), ($"file", $"path"), TPath. split; [exact ex_writes_path|].
  split; [split; vm_compute; reflexivity|].
  apply (testable_path _ _ _ _ _ ($"s*/**/*.py") (lower ($"s*/**/*.py")) ex_deep); [apply ex_plain; repeat constructor; lia|reflexivity|exact ex_deep_ok].
Qed.
Lemma ex_writes_size : Writes ($"size+{}src/b.py") ($"size") ($"+") (Some []) ($"src/b.py").
Proof.
  apply (Writes_intro [] ($"size") [] ($"+") ($"+") (Some []) ($"{}") [] ($"src/b.py") []);
  [chars | left; split; [discriminate|chars] | chars | constructor | exact ref_same | chars
  | split; [discriminate|cbn; intuition discriminate] | chars | exact I | cbn; discriminate
  | intros _ _; cbn; discriminate | intros _ _ _; cbn; discriminate].
Qed.
Lemma ex_legal_reference : Legal str ex_compile ex_time false CaseSmart ex_registered ex_init ex_reference ($"size+{}src/b.py").
Proof.
  exists ($"size"), ($"+"), (Some []), ($"src/b.py"), ($"file", $"size"), TSize. split; [exact ex_writes_size|].
  split; [split; vm_compute; reflexivity|]. exists (VInt 3). split.
  - exists ($"file", $"size"), TSize. split; [split; reflexivity|]. split; [apply RegistryProofs.common_builtin; discriminate|reflexivity].
  - left. split; [right; now left|right; right; right; now left].
Qed.
Lemma ex_sensible : sensible_args str ex_compile ex_time false CaseSmart ex_registered ex_init ex_reference ex_search ex_meaning.
Proof.
  assert (T1 : is_test ($"name%*.py")) by not_token.
  assert (T2 : is_test ($"size+5")) by not_token.
  split.
  { split; [|right; repeat constructor; discriminate]. apply Alts_one.
    apply (Run_op _ [_] _ [_] [_]); [now apply Op_test|]. apply (Run_op _ [_] _ [] []); [now apply Op_test|constructor]. }
  split.
  { intros t [<-|[<-|[]]] _; [exact ex_legal_name|exact ex_legal_size]. }
  split; [repeat constructor; cbn; lia|].
  split; [right; right; repeat constructor; discriminate|].
  split; [|discriminate]. constructor; [|constructor]. split; [not_token|exact ex_legal_old].
Qed.
Ltac validity :=
  apply valid_intro;
  [cbn; repeat (apply NoDup_cons; [cbn; intuition discriminate|]); apply NoDup_nil
  |repeat (apply Forall_cons; [split; [discriminate|cbn; intuition discriminate]|]); apply Forall_nil
  |let f := fresh in let Hf := fresh in intros f Hf; cbn [In] in Hf;
   repeat match type of Hf with
   | _ \/ _ => destruct Hf as [<-|Hf]; [cbn [f_kids]; validity|]
   end; destruct Hf].
Lemma ex_real : real_directories ($"/home") ex_listing ex_search.
Proof.
  intros d [<-|[]]. split; [discriminate|]. unfold contents.
  match goal with |- valid ?l => let l' := eval vm_compute in l in change l with l' end. validity.
Qed.

Definition ex_excluded : entry -> res bool := (search_excluded str ex_compile ex_re ex_time false CaseSmart ex_registered ex_init ex_reference
  ex_score ex_other ex_plugin (process_arguments ex_search)).
Definition ex_matched : entry -> res bool := (search_matched str ex_compile ex_re ex_time false CaseSmart ex_registered ex_init ex_reference
  ex_score ex_other ex_plugin (process_arguments ex_search)).

Definition ex_roots : list (node entry) :=
  Eval vm_compute in match search_roots ($"/home") ex_device ex_listing (process_arguments ex_search) with Ok l => l | Err _ => [] end.
Lemma ex_roots_eq : search_roots ($"/home") ex_device ex_listing (process_arguments ex_search) = Ok ex_roots.
Proof. vm_compute. reflexivity. Qed.

Definition every (e : entry) : bool := true.
(** The tests of the entries are run by vm_compute. *)
Ltac run_norm := match goal with |- WalkModel.run _ _ _ _ _ _ _ _ _ _ ?s _ _ =>
  let s' := eval vm_compute in s in let H := fresh in assert (H : s = s') by (vm_cast_no_check (eq_refl s')); rewrite H; clear H end.
Ltac work_norm := match goal with |- ?w = Ok (Some ?t, ?e) =>
  let v := eval vm_compute in w in
  match v with Ok (Some ?t', ?e') => unify t t'; unify e e'; vm_cast_no_check (eq_refl v) end end.
Ltac search_work := run_norm; eapply run_cons;
  [eapply SWork with (l := []) (r := []) (split := false) (ok := true); [reflexivity|work_norm]|].
Lemma ex_run : exists ls s, WalkModel.run entry ex_excluded ex_matched every Console 1 false true true 1 (initial entry 1 ex_roots) ls s /\
  main_ s = MPassed /\ map e_path (results Console s) = [$"src/a.py"; $"src/lib/e.py"].
Proof.
  eexists. eexists. split.
  - check. take. repeat search_work. finish. check. take. repeat search_work. finish. check. take. repeat search_work. finish.
    check. wait 1. empty. nothing. pass.
  - split; reflexivity.
Qed.
(** A spurious queue.Empty: nothing is found. *)
Lemma ex_lost : exists ls s, WalkModel.run entry ex_excluded ex_matched every Console 1 false false true 1 (initial entry 1 ex_roots) ls s /\
  main_ s = MPassed /\ results Console s = [].
Proof.
  eexists. eexists. split.
  - check. wait 1. empty. nothing. pass.
  - split; reflexivity.
Qed.
Lemma ex_refuted : exists roots ls s e, search_roots ($"/home") ex_device ex_listing (process_arguments ex_search) = Ok roots /\
  WalkModel.run entry ex_excluded ex_matched every Console 1 false false true 1 (initial entry 1 roots) ls s /\
  main_ s = MPassed /\
  Reported str ex_compile ex_re ex_time false CaseSmart ex_registered ex_init ex_reference ex_other ex_plugin ($"/home") ex_device ex_listing
    ex_search ex_meaning e /\ processable Console every e /\ ~ In e (results Console s).
Proof.
  destruct ex_run as (ls & s & R & M & E). destruct ex_lost as (ls' & s' & R' & M' & E').
  destruct (search_sound str ex_compile ex_re ex_time false CaseSmart ex_registered ex_init ex_reference ex_score ex_other ex_plugin
    ($"/home") ex_device ex_listing ex_search ex_meaning ex_honest ex_sensible ex_real every Console 1 false true true 1)
    as (roots & Er & S).
  rewrite ex_roots_eq in Er. injection Er as <-. destruct (S ls s R) as [S1 _].
  destruct (results Console s) as [|e l]; [discriminate E|]. exists ex_roots, ls', s', e.
  split; [exact ex_roots_eq|]. split; [exact R'|]. split; [exact M'|]. destruct (S1 e (or_introl eq_refl)) as [A B].
  split; [exact A|]. split; [exact B|]. rewrite E'. intros [].
Qed.

(** ff 'path%s*/**/*.py' 'size+{}src/b.py' src -e name=old -H --xdev -d 0-1 *)
Definition ex_search_deep : pargs :=
  PArgs [$"path%s*/**/*.py"; $"size+{}src/b.py"] [$"src"] [$"name=old"] (Some [(0, Some 1)]) false true true
    None ($"auto") false None None None [$"path"] None None false.
Definition ex_meaning_deep : list (list bexp) := [[BTest ($"path%s*/**/*.py"); BTest ($"size+{}src/b.py")]].
Lemma ex_sensible_deep : sensible_args str ex_compile ex_time false CaseSmart ex_registered ex_init ex_reference ex_search_deep ex_meaning_deep.
Proof.
  assert (T1 : is_test ($"path%s*/**/*.py")) by not_token.
  assert (T2 : is_test ($"size+{}src/b.py")) by not_token.
  split.
  { split; [|right; repeat constructor; discriminate]. apply Alts_one.
    apply (Run_op _ [_] _ [_] [_]); [now apply Op_test|]. apply (Run_op _ [_] _ [] []); [now apply Op_test|constructor]. }
  split.
  { intros t [<-|[<-|[]]] _; [exact ex_legal_path|exact ex_legal_reference]. }
  split; [repeat constructor; cbn; lia|].
  split; [right; right; repeat constructor; discriminate|].
  split; [|discriminate]. constructor; [|constructor]. split; [not_token|exact ex_legal_old].
Qed.
Definition ex_excluded_deep : entry -> res bool := (search_excluded str ex_compile ex_re ex_time false CaseSmart ex_registered ex_init ex_reference
  ex_score ex_other ex_plugin (process_arguments ex_search_deep)).
Definition ex_matched_deep : entry -> res bool := (search_matched str ex_compile ex_re ex_time false CaseSmart ex_registered ex_init ex_reference
  ex_score ex_other ex_plugin (process_arguments ex_search_deep)).
Lemma ex_roots_deep : search_roots ($"/home") ex_device ex_listing (process_arguments ex_search_deep) = Ok ex_roots.
Proof. vm_compute. reflexivity. Qed.
Lemma ex_run_deep : exists ls s,
  WalkModel.run entry ex_excluded_deep ex_matched_deep every Console 1 false true true 1 (initial entry 1 ex_roots) ls s /\
  main_ s = MPassed /\ map e_path (results Console s) = [$"src/a.py"; $"src/lib/e.py"].
Proof.
  eexists. eexists. split.
  - check. take. repeat search_work. finish. check. take. repeat search_work. finish. check. take. repeat search_work. finish.
    check. wait 1. empty. nothing. pass.
  - split; reflexivity.
Qed.
