(** Properties C77 and C78: reference files. *)
From Coq Require Import List NArith ZArith Bool Lia.
From Verif Require Import Py ParserModel ExprSpec OsPath PathModel PathSpec EntrySpec TypeModel TypeSpec RegistryModel TestModel TestProofs RefProofs.
From Verif Require Import ArgumentsSpec ArgumentsModel EntryModel SearchModel SearchSpec SearchRuns.
From Verif Require Import ReferenceModel ReferenceSpec ReferenceProofs ReferenceTestProofs.
Import ListNotations.
Local Open Scope Z_scope.

Section Reference.
  (** Whatever the file system is, without a file that has no name *)
  Variable cwd : str.
  Variable stat : str -> option status.
  Hypothesis rooted : absolute cwd = true.
  Hypothesis no_empty_name : stat [] = None.

  (** C77: the entry is that of the named file. *)
  Theorem C77_names : forall dirs p e, as_reference cwd stat dirs p = Ok e ->
    place cwd (e_path e) = place cwd p /\ place cwd (e_abspath e) = place cwd p /\ stat p = Some (e_status e).
  Proof. intros dirs p e. exact (reference_names cwd stat rooted dirs p e no_empty_name). Qed.
  (** Below a search directory that is not the root it is the entry that the
      search makes. *)
  Theorem C77_walk_partial : forall device listing a d names f e p st,
    ~ two_slashes cwd -> ~ two_slashes p -> ~ two_slashes d -> place cwd d <> [] -> absolute_paths a = false ->
    first_above cwd (a_directories a) d names p ->
    Place (contents cwd listing a d) names f -> entry_at cwd device a d names f e ->
    stat d = Some st -> st_dev st = device d -> stat p = Some (f_status f) ->
    as_reference cwd stat (a_directories a) p = Ok e.
  Proof.
    intros device listing a d names f e p st C P D Rt Ab F _ E Sd Dev Sp.
    destruct (reference_walk cwd stat rooted _ p d names st (f_status f) C P D Rt F Sd Sp) as [-> _].
    unfold entry_at, start_dir, start_path in E. rewrite Ab in E. rewrite Dev. exact E.
  Qed.
  (** Elsewhere it counts as one of the entries of its directory. *)
  Theorem C77_outside : forall dirs p d n sd st, ~ two_slashes cwd -> ~ two_slashes p ->
    (forall d' names, In d' dirs -> ~ leads cwd d' names p) -> d <> [] -> inside d n p -> name_ok n ->
    stat d = Some sd -> stat p = Some st ->
    exists e, as_reference cwd stat dirs p = Ok e /\ e_depth e = 0%nat /\ e_name e = n /\
      e_samedev e = (st_dev st =? st_dev sd) /\ root (e_start e) = d.
  Proof. exact (reference_outside cwd stat rooted). Qed.
  (** But a file given by its name alone is not found there. *)
  Theorem C77_bare : forall dirs p, ~ two_slashes cwd -> ~ In SLASH p ->
    (forall d' names, In d' dirs -> ~ leads cwd d' names p) -> as_reference cwd stat dirs p = Err OSErr.
  Proof. intros dirs p. exact (reference_bare cwd stat rooted dirs p no_empty_name). Qed.
End Reference.
Print Assumptions C77_names.
Print Assumptions C77_walk_partial.
Print Assumptions C77_outside.
Print Assumptions C77_bare.

(** Files known under some spellings *)
Definition ref_stat (p : str) : option status :=
  if str_eqb p ($"src") then Some (Status 16877 4096 1)
  else if str_eqb p ($"/") then Some (Status 16877 4096 1)
  else if str_eqb p ($"/etc") then Some (Status 16877 4096 1)
  else if str_eqb p ($"../home/src/./lib/e.py") then Some (Status 33188 12 1)
  else if str_eqb p ($"README") then Some (Status 33188 7 1)
  else if str_eqb p ($"/etc/passwd") then Some (Status 33188 9 1)
  else None.
Definition ref_entry (d : str) (rel : str) (st : status) : entry :=
  match mk_entry (Start d (abspath ($"/home") d) 1) rel st with Ok e => e | Err _ => Entry (Start [] [] 0) [] st [] [] [] [] false end.
Example C77_example : exists e,
  absolute ($"/home") = true /\ ref_stat [] = None /\
  first_above ($"/home") (a_directories ex_search) ($"src") [$"lib"; $"e.py"] ($"../home/src/./lib/e.py") /\
  Place (contents ($"/home") ex_listing ex_search ($"src")) [$"lib"; $"e.py"] (a_file ($"e.py") 12) /\
  entry_at ($"/home") ex_device ex_search ($"src") [$"lib"; $"e.py"] (a_file ($"e.py") 12) e /\
  place ($"/home") ($"src") <> [] /\ absolute_paths ex_search = false /\
  as_reference ($"/home") ref_stat (a_directories ex_search) ($"../home/src/./lib/e.py") = Ok e /\ e_depth e = 1%nat /\
  e_path e = $"src/lib/e.py".
Proof.
  exists (ref_entry ($"src") ($"lib/e.py") (Status 33188 12 1)).
  split; [reflexivity|]. split; [reflexivity|]. split.
  { exists [], []. split; [reflexivity|]. split; [split; [discriminate|vm_compute; reflexivity]|]. intros d' n []. }
  split.
  { change (Place (contents ($"/home") ex_listing ex_search ($"src")) ([$"lib"] ++ [f_name (a_file ($"e.py") 12)]) (a_file ($"e.py") 12)).
    apply (place_below _ [$"lib"] (a_dir ($"lib") [a_file ($"e.py") 12; a_file ($"README") 12; a_dir ($"deep") [a_file ($"f.py") 10]])).
    - change [$"lib"] with [f_name (a_dir ($"lib") [a_file ($"e.py") 12; a_file ($"README") 12; a_dir ($"deep") [a_file ($"f.py") 10]])].
      apply place_here. vm_compute. tauto.
    - vm_compute. reflexivity.
    - vm_compute. tauto. }
  split; [vm_compute; reflexivity|]. split; [vm_compute; discriminate|]. vm_compute. tauto.
Qed.
Example C77_outside_example : exists e, as_reference ($"/home") ref_stat [$"src"] ($"/etc/passwd") = Ok e /\
  e_depth e = 0%nat /\ e_samedev e = true /\ e_path e = $"/etc/passwd".
Proof. eexists. split; [vm_compute; reflexivity|]. vm_compute. tauto. Qed.
(** The file README exists, but cannot be a reference. *)
Example C77_bare_example : ref_stat ($"README") <> None /\ as_reference ($"/home") ref_stat [$"src"] ($"README") = Err OSErr.
Proof. split; [discriminate|vm_compute; reflexivity]. Qed.
(** C77 is false for the root directory: there the search counts a file in
    /etc as one level deep, the reference does not. *)
Theorem C77_refuted : exists cwd stat device dirs d names p st sd e e',
  absolute cwd = true /\ stat [] = None /\ first_above cwd dirs d names p /\
  stat d = Some sd /\ st_dev sd = device d /\ stat p = Some st /\
  mk_entry (start_dir cwd device false d) (walk_relpath names) st = Ok e /\
  as_reference cwd stat dirs p = Ok e' /\ e_depth e = 1%nat /\ e_depth e' = 0%nat.
Proof.
  exists ($"/home"), ref_stat, ex_device, [$"/"], ($"/"), [$"etc"; $"passwd"], ($"/etc/passwd"),
    (Status 33188 9 1), (Status 16877 4096 1), (ref_entry ($"/") ($"etc/passwd") (Status 33188 9 1)), (ref_entry ($"/etc") ($"passwd") (Status 33188 9 1)).
  split; [reflexivity|]. split; [reflexivity|]. split.
  { exists [], []. split; [reflexivity|]. split; [split; [discriminate|vm_compute; reflexivity]|]. intros d' n []. }
  vm_compute. tauto.
Qed.
Print Assumptions C77_refuted.

(** C78: every file found by the search passes the test with itself as the
    reference, however the path of the reference is spelled. *)
Theorem C78_self_partial : forall R rcompile rsearch parse_time debug case registered init_plugin other plugin_value cwd device listing stat
  a d names f e p st s at_name o at_ t x,
  absolute cwd = true -> ~ two_slashes cwd -> ~ two_slashes p -> ~ two_slashes d -> place cwd d <> [] ->
  absolute_paths a = false -> first_above cwd (a_directories a) d names p ->
  Place (contents cwd listing a d) names f -> entry_at cwd device a d names f e ->
  stat d = Some st -> st_dev st = device d -> stat p = Some (f_status f) ->
  Writes s at_name o (Some []) p -> resolves registered init_plugin at_name at_ t -> reflexive t o ->
  attribute_value other plugin_value e at_ = Some x -> possible t x ->
  exists test, parse_test R rcompile parse_time debug case registered init_plugin
      (reference_value cwd stat other plugin_value (a_directories a)) s = Ok test /\
    entry_test R rsearch other plugin_value e test = Val true.
Proof. exact self_entry. Qed.
Print Assumptions C78_self_partial.
(** A reference that cannot be read or lacks the attribute is an error of the
    user. *)
Theorem C78_rejected : forall R rcompile parse_time debug case registered init_plugin other plugin_value cwd stat dirs s at_name o r p at_ t ref rt e,
  Writes s at_name o (Some r) p -> resolves registered init_plugin at_name at_ t -> refers registered init_plugin r at_ t ref rt ->
  (as_reference cwd stat dirs p = Err e \/
   exists x, as_reference cwd stat dirs p = Ok x /\ attribute_value other plugin_value x ref = None) ->
  exists e, parse_test R rcompile parse_time debug case registered init_plugin
      (reference_value cwd stat other plugin_value dirs) s = Err e /\ In e [ExpressionError; UsageError].
Proof. exact rejected_reference. Qed.
Print Assumptions C78_rejected.
(** With lists of strings the program fails with an internal error, unless
    --case sensitive is given. *)
Theorem C78_lists : forall R rcompile parse_time debug case registered init_plugin reference_value s at_name o p at_ l,
  Writes s at_name o (Some []) p -> resolves registered init_plugin at_name at_ TListOfStrings -> In o (operators TListOfStrings) ->
  reference_value at_ p = Ok (VList l) -> case <> CaseSensitive ->
  parse_test R rcompile parse_time debug case registered init_plugin reference_value s = Err AttributeErr.
Proof. exact list_reference. Qed.
Print Assumptions C78_lists.

(** size={}../home/src/./lib/e.py *)
Example C78_example : exists e test,
  Writes ($"size={}../home/src/./lib/e.py") ($"size") ($"=") (Some []) ($"../home/src/./lib/e.py") /\
  resolves ex_registered ex_init ($"size") ($"file", $"size") TSize /\
  entry_at ($"/home") ex_device ex_search ($"src") [$"lib"; $"e.py"] (a_file ($"e.py") 12) e /\
  attribute_value ex_other ex_plugin e ($"file", $"size") = Some (VInt 12) /\ possible TSize (VInt 12) /\
  parse_test str ex_compile ex_time false CaseSmart ex_registered ex_init
    (reference_value ($"/home") ref_stat ex_other ex_plugin (a_directories ex_search)) ($"size={}../home/src/./lib/e.py") = Ok test /\
  entry_test str ex_re ex_other ex_plugin e test = Val true.
Proof.
  exists (ref_entry ($"src") ($"lib/e.py") (Status 33188 12 1)), (Test ($"file", $"size") ($"=") TSize (TV (VInt 12)) false).
  split.
  { apply (Writes_intro [] ($"size") [] ($"=") ($"=") (Some []) ($"{}") [] ($"../home/src/./lib/e.py") []);
      [chars | left; split; [discriminate|chars] | chars | constructor | constructor | chars
      | split; [discriminate|cbn; intuition discriminate] | chars | exact I | cbn; discriminate
      | discriminate | discriminate]. }
  split; [split; vm_compute; reflexivity|].
  split; [vm_compute; reflexivity|]. split; [vm_compute; reflexivity|]. split; [split; exact I|].
  split; vm_compute; reflexivity.
Qed.
(** A plugin with a list *)
Definition list_plugin : plugin := {| p_name := $"tar"; p_attrs := [($"members", TListOfStrings)] |}.
Example C78_lists_example : exists l : list str, l <> [] /\
  parse_test str ex_compile ex_time false CaseSmart (load_plugins [file_plugin; list_plugin]) ex_init
    (fun _ _ => Ok (VList l)) ($"members={}x.tar") = Err AttributeErr.
Proof. exists [$"a"]. split; [discriminate|vm_compute; reflexivity]. Qed.
