(** Properties C80 and C81: the plugin git. *)
From Coq Require Import List NArith ZArith Bool Lia.
From Verif Require Import Py PathSpec IgnoreSpec GitModel GitSpec GitProofs.
Import ListNotations.

(** C80: whatever has been asked before, an entry belongs to the nearest
    enclosing directory with a .git directory, or to none; as long as the output
    of git can be taken apart. *)
Theorem C80_nearest : forall isdir ls_files porcelain entries,
  (forall r, Forall plain_name r -> git isdir r -> exists st, status (abs_dir r) (porcelain (abs_dir r)) = Ok st) ->
  Forall (fun e => fst e <> [] /\ Forall plain_name (fst e)) entries ->
  Forall2 (fun e x => exists y, x = Ok y /\ right_repo isdir (fst e) (snd e) y) entries
    (process_all isdir ls_files porcelain [] (map (fun e => (abs_dir (fst e), snd e)) entries)).
Proof.
  intros isdir ls_files porcelain entries H F.
  exact (process_all_repo isdir ls_files porcelain H entries F [] (cache_nil isdir ls_files porcelain)).
Qed.
Print Assumptions C80_nearest.
(** But a path with two slashes at the beginning is followed for ever: no limit
    of the recursion is enough. *)
Theorem C80_two_slashes : forall isdir ls_files porcelain fuel, isdir ($"//.git") = false ->
  find_repo isdir ls_files porcelain fuel [] ($"//") = Err OutOfFuel.
Proof. exact two_slashes_loop. Qed.
Print Assumptions C80_two_slashes.

(** C81: tracked and dirty say what git says, for names that git does not quote
    and without renamed files. *)
Theorem C81_listed_partial : forall isdir ls_files porcelain files changes entries,
  (forall r, Forall plain_name r -> git isdir r ->
     ls_files (abs_dir r) = map file_line (files r) /\ Forall good_path (files r)) ->
  (forall r, Forall plain_name r -> git isdir r ->
     porcelain (abs_dir r) = map change_line (changes r) /\ Forall good_change (changes r)) ->
  Forall (fun e => fst e <> [] /\ Forall plain_name (fst e)) entries ->
  Forall2 (fun e x => exists y, x = Ok y /\ right isdir files changes (fst e) (snd e) y) entries
    (process_all isdir ls_files porcelain [] (map (fun e => (abs_dir (fst e), snd e)) entries)).
Proof.
  intros isdir ls_files porcelain files changes entries H1 H2 F.
  exact (process_all_ok isdir ls_files porcelain files changes (prints_parses isdir porcelain changes H2) H1 H2 entries F []
    (cache_nil isdir ls_files porcelain)).
Qed.
Print Assumptions C81_listed_partial.

(** /r is a repository with the files a and d/b, of which d/b is changed and x
    is not tracked; /r/s is another one. *)
Definition ex_isdir (p : str) : bool := str_in p [$"/r/.git"; $"/r/s/.git"].
Definition ex_files (r : list str) : list (list str) := match r with [_] => [[$"a"]; [$"d"; $"b"]] | _ => [[$"c"]] end.
Definition ex_changes (r : list str) : list change :=
  match r with [_] => [Change 32%N 77%N [$"d"; $"b"]; Change 63%N 63%N [$"x"]] | _ => [] end.
Definition ex_ls (p : str) : list str := if str_eqb p ($"/r") then [$"a"; $"d/b"] else [$"c"].
Definition ex_porcelain (p : str) : list str := if str_eqb p ($"/r") then [$" M d/b"; $"?? x"] else [].
Definition ex_entries : list (list str * bool) :=
  [([$"r"; $"d"; $"b"], false); ([$"r"; $"a"], false); ([$"r"; $"d"], true); ([$"r"; $"x"], false); ([$"r"; $"s"; $"c"], false);
   ([$"q"], false); ([$"r"; $"s"], true)].
Lemma ex_git r : Forall plain_name r -> git ex_isdir r -> r = [$"r"] \/ r = [$"r"; $"s"].
Proof.
  intros F G. unfold git, ex_isdir in G. apply str_in_iff in G.
  assert (P : Forall plain_name (r ++ [$".git"])) by (apply Forall_app; split; [exact F|constructor; [exact dot_git_plain|constructor]]).
  assert (Pr : plain_name ($"r")) by (split; [split; [discriminate|cbn; intuition discriminate]|split; discriminate]).
  assert (Ps : plain_name ($"s")) by (split; [split; [discriminate|cbn; intuition discriminate]|split; discriminate]).
  destruct G as [G|[G|[]]]; [left; change ($"/r/.git") with (abs_dir ([$"r"] ++ [$".git"])) in G
                            |right; change ($"/r/s/.git") with (abs_dir ([$"r"; $"s"] ++ [$".git"])) in G];
    (apply abs_inj in G; [apply app_inj_tail in G as [G _]; now symmetry|repeat constructor; auto using dot_git_plain; try apply dot_git_plain; try apply Pr; try apply Ps|exact P]).
Qed.
Example C81_example :
  (forall r, Forall plain_name r -> git ex_isdir r ->
     ex_ls (abs_dir r) = map file_line (ex_files r) /\ Forall good_path (ex_files r)) /\
  (forall r, Forall plain_name r -> git ex_isdir r ->
     ex_porcelain (abs_dir r) = map change_line (ex_changes r) /\ Forall good_change (ex_changes r)) /\
  Forall (fun e => fst e <> [] /\ Forall plain_name (fst e)) ex_entries /\
  process_all ex_isdir ex_ls ex_porcelain [] (map (fun e => (abs_dir (fst e), snd e)) ex_entries) =
    [Ok (Some (Data ($"/r") false true true)); Ok (Some (Data ($"/r") false true false)); Ok (Some (Data ($"/r") false true true));
     Ok (Some (Data ($"/r") false false false)); Ok (Some (Data ($"/r/s") false true false)); Ok None;
     Ok (Some (Data ($"/r/s") true true false))].
Proof.
  assert (Pn : forall n, n <> [] -> ~ In SLASH n -> n <> $"." -> n <> $".." -> plain_name n)
    by (intros n H1 H2 H3 H4; split; [split; assumption|split; assumption]).
  assert (P1 : forall c : char, c <> 47%N -> c <> 46%N -> plain_name [c]).
  { intros c H1 H2. apply Pn; [discriminate| |intros H; injection H as H; contradiction|discriminate].
    intros [H|[]]. apply H1. exact H. }
  assert (Ppl : Forall plain_name [$"a"; $"b"; $"c"; $"d"; $"q"; $"r"; $"s"; $"x"]) by (repeat (constructor; [apply P1; discriminate|]); constructor).
  rewrite Forall_forall in Ppl.
  assert (G1 : forall n, In n [$"a"; $"b"; $"c"; $"d"; $"q"; $"r"; $"s"; $"x"] -> plain_name n) by exact Ppl.
  split; [|split; [|split]].
  - intros r F G. destruct (ex_git r F G) as [-> | ->]; (split; [vm_compute; reflexivity|]);
      (repeat (constructor; [split; [discriminate|split; [repeat (constructor; [apply G1; cbn; tauto|]); constructor|reflexivity]]|])); constructor.
  - intros r F G. destruct (ex_git r F G) as [-> | ->]; (split; [vm_compute; reflexivity|]); [|constructor].
    repeat (constructor; [split; [cbn; (left; reflexivity) || (right; reflexivity)|split; [right; reflexivity|split; [right; reflexivity|]]];
      (split; [discriminate|split; [repeat (constructor; [apply G1; cbn; tauto|]); constructor|reflexivity]])|]). constructor.
  - repeat (constructor; [split; [discriminate|]; repeat (constructor; [apply G1; cbn; tauto|]); constructor|]). constructor.
  - vm_compute. reflexivity.
Qed.
(** The same repositories for C80. *)
Example C80_example :
  (forall r, Forall plain_name r -> git ex_isdir r -> exists st, status (abs_dir r) (ex_porcelain (abs_dir r)) = Ok st) /\
  Forall (fun e => fst e <> [] /\ Forall plain_name (fst e)) ex_entries.
Proof.
  split; [|exact (proj1 (proj2 (proj2 C81_example)))].
  exact (prints_parses ex_isdir ex_porcelain ex_changes (proj1 (proj2 C81_example))).
Qed.

(** C81 is false for names that git quotes and for renamed files: /r/a b is
    tracked and changed, /r/n was renamed from /r/o; both count as clean. *)
Theorem C81_refuted : exists isdir ls_files porcelain,
  isdir ($"/r/.git") = true /\
  ls_files ($"/r") = [$"a b"; $"n"] /\
  porcelain ($"/r") = [$"M  " ++ [34%N] ++ $"a b" ++ [34%N]; $"R  o -> n"] /\
  process_all isdir ls_files porcelain [] [($"/r/a b", false); ($"/r/n", false); ($"/r", true)] =
    [Ok (Some (Data ($"/r") false true false)); Ok (Some (Data ($"/r") false true false)); Ok (Some (Data ($"/r") true true true))].
Proof.
  exists (str_eqb ($"/r/.git")), (fun _ => [$"a b"; $"n"]), (fun _ => [$"M  " ++ [34%N] ++ $"a b" ++ [34%N]; $"R  o -> n"]).
  vm_compute. tauto.
Qed.
Print Assumptions C81_refuted.
