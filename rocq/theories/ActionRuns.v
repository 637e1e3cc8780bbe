(** Searches with -x and -X that meet the assumptions, and a query by the API *)
From Coq Require Import List NArith ZArith Bool Lia.
From Verif Require Import Py PathSpec EntrySpec TypeSpec WalkModel WalkSpec WalkRuns.
From Verif Require Import PathModel EntryModel TypeModel RegistryModel TestModel FieldModel TemplateModel TemplateSpec SortModel ConsoleModel ArgumentsModel SearchModel SearchSpec
  SearchRuns OutputModel OutputRuns ActionModel.
From Verif Require BatchModel.
Import ListNotations.
Local Open Scope Z_scope.

(** Only a.py has a known owner. *)
Definition act_other (e : entry) (n : str) : option value :=
  if str_eqb n ($"user") && str_eqb (e_name e) ($"a.py") then Some (VStr ($"root")) else None.
Lemma act_honest : honest ex_registered ex_init act_other ex_plugin.
Proof.
  split; [reflexivity|]. split; [reflexivity|]. split; [|discriminate]. intros e n t x F H. unfold act_other in H.
  destruct (str_eqb n ($"user")) eqn:E; [|discriminate]. apply str_eqb_eq in E. subst n. vm_compute in F. injection F as <-.
  cbn [andb] in H. destruct (str_eqb (e_name e) ($"a.py")); [|discriminate]. injection H as <-. exact I.
Qed.
(** chown {user} {} *)
Definition act_templates : list str := [$"chown"; $"{user}"; $"{}"].
Definition act_pieces : list (list piece) := [map PChar ($"chown"); [PHole ($"user")]; [PHole []]].
Lemma act_reads : Forall2 Reads act_templates act_pieces.
Proof.
  constructor; [|constructor; [|constructor; [|constructor]]].
  - repeat (apply reads_char; [discriminate|discriminate|]). constructor.
  - apply (reads_hole ($"user") []); [cbn; intuition discriminate|discriminate|constructor].
  - apply (reads_hole [] []); [intros []|discriminate|constructor].
Qed.
Lemma act_holes : Forall (holes_ok ex_registered ex_init) act_pieces.
Proof.
  assert (H0 : slot ex_registered ex_init [] (Field ($"file", $"path") ($"file.path") TPath None None)) by (exists ($"file.path"); split; [constructor|vm_compute; reflexivity]).
  assert (H1 : slot ex_registered ex_init ($"user") (Field ($"file", $"user") ($"user") TString None None)).
  { exists ($"user"). split; [constructor; cbn; intuition discriminate|vm_compute; reflexivity]. }
  repeat constructor; intros h Hh; cbn in Hh; repeat (destruct Hh as [Hh|Hh]; [try discriminate Hh; injection Hh as <-; eauto|]); destruct Hh.
Qed.
Lemma act_path : with_path act_pieces act_pieces.
Proof. left. split; [|reflexivity]. exists [PHole ($"user")]. split; [now left|]. exists ($"user"). now left. Qed.
Definition act_parts : list (list part) :=
  Eval vm_compute in match store ex_registered ex_init act_templates with Ok fs => fs | Err _ => [] end.
Lemma act_store : store ex_registered ex_init act_templates = Ok act_parts.
Proof. vm_compute. reflexivity. Qed.
Definition act_excluded : entry -> res bool := search_excluded str ex_compile ex_re ex_time false CaseSmart ex_registered ex_init ex_reference
  ex_score act_other ex_plugin (process_arguments ex_search).
Definition act_matched : entry -> res bool := search_matched str ex_compile ex_re ex_time false CaseSmart ex_registered ex_init ex_reference
  ex_score act_other ex_plugin (process_arguments ex_search).
Lemma act_run : exists ls s, WalkModel.run entry act_excluded act_matched (has_command act_other ex_plugin ex_human false act_parts)
    Exec 1 false true true 1 (initial entry 1 ex_roots) ls s /\
  main_ s = MPassed /\ map (command act_other ex_plugin ex_human false act_parts) (map fst (ran s)) = [Some [$"chown"; $"root"; $"src/a.py"]].
Proof.
  eexists. eexists. split.
  - check. take. repeat search_work. finish. 
    check. take. repeat search_work. finish. 
    check. take. repeat search_work. finish. 
    check. take. repeat search_work. finish. 
    check. wait 1. empty. nothing. pass.
  - split; [reflexivity|]. vm_compute. reflexivity.
Qed.
(** echo -n {/} *)
Definition act_batch : list (list part) :=
  Eval vm_compute in match store_batch ex_registered ex_init [$"echo"; $"-n"; $"{/}"] with Ok fs => fs | Err _ => [] end.
Lemma act_store_batch : store_batch ex_registered ex_init [$"echo"; $"-n"; $"{/}"] = Ok act_batch.
Proof. vm_compute. reflexivity. Qed.
Lemma act_batch_reads : Reads ($"echo") (map PChar ($"echo")) /\ Forall2 Reads [$"-n"; $"{/}"] [map PChar ($"-n"); [PHole ($"/")]].
Proof.
  split; [repeat (apply reads_char; [discriminate|discriminate|]); constructor|].
  constructor; [|constructor; [|constructor]].
  - repeat (apply reads_char; [discriminate|discriminate|]). constructor.
  - apply (reads_hole ($"/") []); [cbn; intuition discriminate|discriminate|constructor].
Qed.
Lemma act_batch_holes : Forall (holes_ok ex_registered ex_init) [map PChar ($"-n"); [PHole ($"/")]].
Proof.
  assert (H1 : slot ex_registered ex_init ($"/") (Field ($"file", $"name") ($"file.name") TString None None)).
  { exists ($"file.name"). split; [constructor|vm_compute; reflexivity]. }
  repeat constructor; intros h Hh; cbn in Hh; repeat (destruct Hh as [Hh|Hh]; [try discriminate Hh; injection Hh as <-; eauto|]); destruct Hh.
Qed.
Lemma act_batch_path : with_path (map PChar ($"echo") :: [map PChar ($"-n"); [PHole ($"/")]]) (map PChar ($"echo") :: [map PChar ($"-n"); [PHole ($"/")]]).
Proof. left. split; [|reflexivity]. exists [PHole ($"/")]. split; [right; now left|]. exists ($"/"). now left. Qed.
(** Two names are too long for this system. *)
Definition act_system (n : nat) (args : list str) : BatchModel.outcome :=
  if (4 <=? length args)%nat then BatchModel.TooLong else BatchModel.Exited 0.
Lemma act_find_fields : find_fields ex_registered ex_init (process_arguments ex_sorted) = Ok (ex_fields, Some ex_sort).
Proof. vm_compute. reflexivity. Qed.
Lemma act_collected : exists ls s, WalkModel.run entry sorted_excluded sorted_matched every Collect 1 false true true 1 (initial entry 1 ex_roots) ls s /\
  main_ s = MPassed /\
  (exists d, batch_calls ex_other ex_plugin ex_human false act_batch (Some ex_sort) true None act_system (results Collect s) = Ok d /\
     map (fun c => snd (fst c)) (BatchModel.calls d) = [[$"echo"; $"-n"; $"e.py"]; [$"echo"; $"-n"; $"a.py"]] /\ BatchModel.ended d = Ok tt) /\
  (exists part, exec_entries ex_other ex_plugin (Some ex_sort) true (Some (0, Some 1)) (results Collect s) = Ok part /\ map e_path part = [$"src/lib/e.py"]) /\
  find_results ex_other ex_plugin ex_human ex_link ex_broken ex_fields (Some ex_sort) true (results Collect s) =
    Ok [[($"size", Some (VInt 12)); ($"path", Some (VStr ($"src/lib/e.py")))]; [($"size", Some (VInt 10)); ($"path", Some (VStr ($"src/a.py")))]].
Proof.
  eexists. eexists. split.
  - check. take. repeat search_work. finish. check. take. repeat search_work. finish. check. take. repeat search_work. finish.
    repeat (run_norm; eapply run_cons; [eapply SReceive with (q1 := []); reflexivity|]).
    check. wait 1. empty. nothing. pass.
  - split; [reflexivity|]. split; [eexists; split; [vm_compute; reflexivity|split; vm_compute; reflexivity]|].
    split; [eexists; split; [vm_compute; reflexivity|vm_compute; reflexivity]|vm_compute; reflexivity].
Qed.
(** A spurious queue.Empty: no command is run. *)
Lemma act_lost : exists ls s, WalkModel.run entry act_excluded act_matched (has_command act_other ex_plugin ex_human false act_parts)
    Exec 1 false false true 1 (initial entry 1 ex_roots) ls s /\ main_ s = MPassed /\ ran s = [].
Proof.
  eexists. eexists. split.
  - check. wait 1. empty. nothing. pass.
  - split; reflexivity.
Qed.
