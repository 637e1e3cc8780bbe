(** A search with sorted and limited output that meets the assumptions. *)
From Coq Require Import List NArith ZArith Bool Lia.
From Verif Require Import Py PathSpec EntrySpec TypeSpec WalkModel WalkSpec WalkRuns.
From Verif Require Import PathModel EntryModel EntryProofs TypeModel RegistryModel TestModel FieldModel SortModel ConsoleModel ArgumentsModel SearchModel SearchSpec
  SearchTreeProofs SearchRuns OutputModel OutputRunProofs.
Import ListNotations.
Local Open Scope Z_scope.

(** ff name%*.py size+5 src -e name=old -H --xdev -d 0-1 -o size:4 -o path -S size --limit=1 *)
Definition ex_sorted : pargs :=
  PArgs [$"name%*.py"; $"size+5"] [$"src"] [$"name=old"] (Some [(0, Some 1)]) false true true
    None ($"auto") false None (Some (0, Some 1)) (Some [$"size"]) [$"size:4"; $"path"] None None false.
Definition ex_fields : list field :=
  [Field ($"file", $"size") ($"size") TSize (Some ($"4")) None; Field ($"file", $"path") ($"path") TPath None None].
Definition ex_sort : list field := [Field ($"file", $"size") ($"size") TSize None None].
Definition ex_human (t : ty) (z : Z) : str := str_of_Z z.
Definition ex_link (e : entry) : str := [].
Definition ex_broken (e : entry) : bool := false.
Lemma ex_setup : setup_fields ex_registered ex_init (process_arguments ex_sorted) = Ok (ex_fields, Some ex_sort).
Proof. vm_compute. reflexivity. Qed.
Lemma ex_not_root e : Reported str ex_compile ex_re ex_time false CaseSmart ex_registered ex_init ex_reference ex_other ex_plugin ($"/home") ex_device ex_listing
    ex_sorted ex_meaning e -> is_dir (complete ex_link ex_broken e) = true \/ e_dir e <> [SLASH].
Proof.
  intros (d & names & f & [<-|[]] & Hp & He & _). right. intros K.
  destruct (ex_real ($"src") (or_introl eq_refl)) as [Hr Hv].
  destruct (place_valid _ names f Hv Hp) as (_ & _ & Hn).
  assert (Hne : names <> []) by (destruct Hp; [discriminate|intros Q; now apply app_eq_nil in Q as [_ Q]]).
  destruct (entry_paths (start_dir ($"/home") ex_device (absolute_paths ex_sorted) ($"src")) names (f_status f) Hr Hne Hn) as (e' & E & _ & _ & I1 & _ & I2 & _).
  unfold entry_at in He. rewrite He in E. injection E as <-. rewrite K in I2.
  assert (I1' : inside ($"src") (e_relpath e) (e_path e)) by (apply I1; discriminate).
  destruct I1' as [[Q _]|[[Q _]|(_ & _ & P)]]; try discriminate Q.
  destruct I2 as [[Q _]|[[_ Q]|(_ & Q & _)]]; [discriminate Q| |now apply Q]. rewrite P in Q. discriminate Q.
Qed.
Definition sorted_excluded : entry -> res bool := search_excluded str ex_compile ex_re ex_time false CaseSmart ex_registered ex_init ex_reference
  ex_score ex_other ex_plugin (process_arguments ex_sorted).
Definition sorted_matched : entry -> res bool := search_matched str ex_compile ex_re ex_time false CaseSmart ex_registered ex_init ex_reference
  ex_score ex_other ex_plugin (process_arguments ex_sorted).
Lemma ex_collected : exists ls s, WalkModel.run entry sorted_excluded sorted_matched every Collect 1 false true true 1 (initial entry 1 ex_roots) ls s /\
  main_ s = MPassed /\ map e_path (results Collect s) = [$"src/a.py"; $"src/lib/e.py"] /\
  print_collected ex_other ex_plugin ex_human Plain false false ($" ") ex_link ex_broken ex_fields (Some ex_sort) true (Some (0, Some 1)) (results Collect s)
    = Ok [$"  12 src/lib/e.py"] /\
  map (render (entry_value ex_other ex_plugin) ex_sort) (results Collect s) = [Ok (PList [PInt 10]); Ok (PList [PInt 12])].
Proof.
  eexists. eexists. split.
  - check. take. repeat search_work. finish. check. take. repeat search_work. finish. check. take. repeat search_work. finish.
    repeat (run_norm; eapply run_cons; [eapply SReceive with (q1 := []); reflexivity|]).
    check. wait 1. empty. nothing. pass.
  - split; [reflexivity|]. split; [reflexivity|]. split; vm_compute; reflexivity.
Qed.
(** Sizes tell the files to be reported apart. *)
Lemma map_apart {A B} (f : A -> B) l a b : NoDup (map f l) -> In a l -> In b l -> f a = f b -> a = b.
Proof.
  induction l as [|x l IH]; cbn; [easy|]. intros N [->|Ha] [->|Hb] E; auto; apply NoDup_cons_iff in N as [N1 N2]; auto.
  - exfalso. apply N1. rewrite E. now apply in_map.
  - exfalso. apply N1. rewrite <- E. now apply in_map.
Qed.
Lemma ex_apart e e' : Reported str ex_compile ex_re ex_time false CaseSmart ex_registered ex_init ex_reference ex_other ex_plugin ($"/home") ex_device ex_listing
    ex_sorted ex_meaning e -> Reported str ex_compile ex_re ex_time false CaseSmart ex_registered ex_init ex_reference ex_other ex_plugin ($"/home") ex_device ex_listing
    ex_sorted ex_meaning e' ->
  render (entry_value ex_other ex_plugin) ex_sort e = render (entry_value ex_other ex_plugin) ex_sort e' -> e = e'.
Proof.
  intros H H' E. destruct ex_collected as (ls & s & Hr & Hm & _ & _ & K).
  destruct (collected_all str ex_compile ex_re ex_time false CaseSmart ex_registered ex_init ex_reference ex_score ex_other ex_plugin ($"/home") ex_device
    ex_listing Plain [] ex_sorted ex_meaning ex_honest ex_sensible ex_real ltac:(repeat constructor; intros []) (or_introl eq_refl) every 1%nat false 1 ltac:(repeat constructor)) as (roots & Er & C).
  assert (X : roots = ex_roots) by (assert (Y := ex_roots_eq); apply (f_equal (fun r => match r with Ok l => l | Err _ => [] end)) in Er, Y; exact (eq_trans (eq_sym Er) Y)).
  subst roots. destruct (C ls s Hr Hm) as [_ I]. apply I in H, H'. refine (map_apart _ _ _ _ _ H H' E). rewrite K.
  constructor; [intros [Q|[]]; discriminate Q|]. constructor; [intros []|constructor].
Qed.
