(** C20 and C21: which ignore files apply.  See DESIGN.md. *)
From Coq Require Import List NArith ZArith Bool Permutation Lia.
From Verif Require Import Py Re ReJoin PathModel PathSpec OsPath GlobModel GlobSpec IgnoreModel IgnoreSpec
  IgnoreProofs IgnoreListProofs.
Import ListNotations.
Local Open Scope nat_scope.

(** C20 is false: two ignore files in one directory that contradict each
    other. *)
Theorem C20_refuted : exists read names names' name,
  Permutation names names' /\ In name names /\
  is_ignored read (scan_ignore_paths [$".gitignore"; $".ignore"] [] ($"/d") names) ($"/d" ++ $"/" ++ name) name false
    = COk (true, Some ($"/d/.gitignore")) /\
  is_ignored read (scan_ignore_paths [$".gitignore"; $".ignore"] [] ($"/d") names') ($"/d" ++ $"/" ++ name) name false
    = COk (false, None).
Proof.
  exists (fun p => if str_eqb p ($"/d/.gitignore") then Some [$"x"] else if str_eqb p ($"/d/.ignore") then Some [$"!x"] else None),
    [$".ignore"; $".gitignore"; $"x"], [$".gitignore"; $".ignore"; $"x"], ($"x").
  split; [apply perm_swap|]. split; [right; right; now left|]. split; vm_compute; reflexivity.
Qed.
Print Assumptions C20_refuted.
(** It holds with at most one ignore file in the directory. *)
Theorem C20_single_partial : forall ignore_files parents absdir names names' read path name is_dir,
  Permutation names names' ->
  length (filter (fun n => existsb (str_eqb n) ignore_files) names) <= 1 ->
  is_ignored read (scan_ignore_paths ignore_files parents absdir names) path name is_dir =
  is_ignored read (scan_ignore_paths ignore_files parents absdir names') path name is_dir.
Proof. intros. now rewrite (scan_single ignore_files parents absdir names names'). Qed.
Print Assumptions C20_single_partial.
(** And with any number of ignore files that have no negated patterns. *)
Theorem C20_positive_partial : forall read ignore_files parents absdir names names' path name is_dir,
  let dir_paths := map (fun n => join absdir n) (filter (fun n => existsb (str_eqb n) ignore_files) names) in
  Permutation names names' ->
  Forall absolute (parents ++ dir_paths) ->
  Forall rule_valid (flat_map (path_rules read) (parents ++ dir_paths)) ->
  Forall (fun r => g_include (translate (snd r) true) = true) (flat_map (path_rules read) dir_paths) ->
  exists b p p',
    is_ignored read (scan_ignore_paths ignore_files parents absdir names) path name is_dir = COk (b, p) /\
    is_ignored read (scan_ignore_paths ignore_files parents absdir names') path name is_dir = COk (b, p').
Proof. exact scan_positive. Qed.
Print Assumptions C20_positive_partial.
(** The files of the directory itself apply to an entry listed before them. *)
Example C20_example :
  let read := fun p => if str_eqb p ($"/d/.gitignore") then Some [$"x"; $"*.o"] else Some [$"!a.o"] in
  let ignored := fun names => is_ignored read
    (scan_ignore_paths [$".gitignore"; $".ignore"] [$"/.ignore"] ($"/d") names) ($"/d/a.o") ($"a.o") false in
  ignored [$"a.o"; $".gitignore"; $"b"] = COk (true, Some ($"/d/.gitignore")) /\
  ignored [$"b"; $".gitignore"; $"a.o"] = ignored [$"a.o"; $".gitignore"; $"b"] /\
  flat_map (path_rules read) [$"/d/.gitignore"] = [($"/d", $"/d/.gitignore", $"x"); ($"/d", $"/d/.gitignore", $"*.o")] /\
  Forall (fun r => g_include (translate (snd r) true) = true) (flat_map (path_rules read) [$"/d/.gitignore"]) /\
  Forall rule_valid (flat_map (path_rules read) [$"/d/.gitignore"]).
Proof.
  cbv zeta. split; [vm_compute; reflexivity|]. split; [vm_compute; reflexivity|]. split; [vm_compute; reflexivity|].
  split; [constructor; [|constructor; [|constructor]]; vm_compute; reflexivity|].
  assert (V : forall p r, compile false (g_regex (translate p true)) = COk r -> ngroups r = 0 ->
    rule_valid ($"/d", $"/d/.gitignore", p)) by (intros p r H1 H2; exists r; now split).
  constructor; [|constructor; [|constructor]]; (eapply V; [vm_compute; reflexivity|reflexivity]).
Qed.

(** C21 is false: in /a the start directory "sub" misses /a/.ignore. *)
Theorem C21_refuted : exists exists_ files comps c p,
  Forall plain_name (comps ++ [c]) /\ Forall name_ok files /\
  ancestor_file exists_ files (comps ++ [c]) p /\
  ~ In p (start_ignores exists_ (abs_dir comps) files true false false c) /\
  ~ In p (start_ignores exists_ (abs_dir comps) files true false true (abs_dir (comps ++ [c]))) /\
  In p (start_ignores exists_ (abs_dir comps) files true false false (abs_dir (comps ++ [c]) ++ ($"/"))).
Proof.
  exists (fun p => str_eqb p ($"/a/.ignore")), [$".ignore"], [$"a"], ($"sub"), ($"/a/.ignore").
  split; [repeat constructor; try discriminate; vm_compute; intuition discriminate|].
  split; [repeat constructor; try discriminate; vm_compute; intuition discriminate|].
  split; [|split; [|split]].
  - exists [$"a"], ($".ignore"). split; [right; now left|]. split; [now left|]. split; vm_compute; reflexivity.
  - vm_compute. tauto.
  - vm_compute. tauto.
  - vm_compute. tauto.
Qed.
Print Assumptions C21_refuted.
(** The start directory "." and absolute start directories with a trailing
    slash: exactly the ignore files of all proper ancestors. *)
Theorem C21_dot_partial : forall exists_ files comps,
  Forall name_ok files -> comps <> [] -> Forall plain_name comps -> forall p,
  In p (start_ignores exists_ (abs_dir comps) files true false false ($".")) <-> ancestor_file exists_ files comps p.
Proof. exact start_dot. Qed.
Print Assumptions C21_dot_partial.
Theorem C21_slash_partial : forall exists_ cwd files comps,
  Forall name_ok files -> comps <> [] -> Forall plain_name comps -> forall p,
  In p (start_ignores exists_ cwd files true false false (abs_dir comps ++ ($"/"))) <-> ancestor_file exists_ files comps p.
Proof. exact start_slash. Qed.
Print Assumptions C21_slash_partial.
(** Other spellings: all proper ancestors but the parent itself. *)
Theorem C21_absolute_partial : forall exists_ cwd files comps c,
  Forall name_ok files -> comps <> [] -> Forall plain_name (comps ++ [c]) -> forall absolute p,
  In p (start_ignores exists_ cwd files true false absolute (abs_dir (comps ++ [c]))) <-> ancestor_file exists_ files comps p.
Proof. exact start_abs. Qed.
Print Assumptions C21_absolute_partial.
Theorem C21_relative_partial : forall exists_ files comps n,
  Forall name_ok files -> comps <> [] -> Forall plain_name comps -> plain_name n -> forall p,
  In p (start_ignores exists_ (abs_dir comps) files true false false n) <-> ancestor_file exists_ files comps p.
Proof. exact start_rel. Qed.
Print Assumptions C21_relative_partial.
Example C21_example :
  start_ignores (fun _ => true) ($"/a/b") [$".ignore"] true false false ($".") = [$"/.ignore"; $"/a/.ignore"] /\
  start_ignores (fun _ => true) ($"/a/b") [$".ignore"] true false false ($"c") = [$"/.ignore"; $"/a/.ignore"] /\
  inits [$"a"; $"b"] = [[]; [$"a"]] /\ Forall plain_name [$"a"; $"b"].
Proof.
  split; [vm_compute; reflexivity|]. split; [vm_compute; reflexivity|]. split; [reflexivity|].
  repeat constructor; try discriminate; vm_compute; intuition discriminate.
Qed.
(** Outer directories come first, so that inner files can override them. *)
Theorem C21_order_partial : forall exists_ files comps,
  Forall name_ok files -> 2 <= length comps -> Forall plain_name comps ->
  start_ignores exists_ (abs_dir comps) files true false false ($".") =
  flat_map (fun d => filter exists_ (map (file_in d) files)) (inits comps).
Proof. intros. apply start_order; [assumption|lia|assumption]. Qed.
Print Assumptions C21_order_partial.
