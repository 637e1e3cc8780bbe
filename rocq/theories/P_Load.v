(** C113: where plugins come from *)
From Coq Require Import List NArith Bool Permutation.
From Verif Require Import Py TypeModel RegistryModel LoadModel LoadSpec LoadProofs.
Import ListNotations.

Theorem C113_directories : forall debug builtin contrib user checkout v l,
  iter_plugin_dirs debug builtin contrib user checkout v = l <->
  Directories builtin (match checkout with Some d => if debug then d else contrib | None => contrib end) user v l.
Proof. exact dirs_iter. Qed.
Print Assumptions C113_directories.
(** Each name is registered once, for a class of the first directory that has one
    of this name; nothing is lost *)
Theorem C113_first : forall scandir dirs r, load_directories scandir dirs = Ok r ->
  NoDup (map p_name r) /\
  (forall p, In p r -> exists before d after n s, dirs = before ++ d :: after /\ Offers scandir d n (p_attrs p) s /\ p_name p = lower n /\
     forall d' n' a' s', In d' before -> Offers scandir d' n' a' s' -> lower n' <> lower n) /\
  (forall d n a s, In d dirs -> Offers scandir d n a s -> exists p, In p r /\ p_name p = lower n).
Proof. exact load_first. Qed.
Print Assumptions C113_first.
(** The same for the directories of C113_directories in their order *)
Theorem C113_all : forall scandir (debug : bool) builtin contrib user checkout v dirs r,
  Directories builtin (match checkout with Some d => if debug then d else contrib | None => contrib end) user v dirs ->
  load_all scandir debug builtin contrib user checkout v = Ok r ->
  NoDup (map p_name r) /\
  (forall p, In p r -> exists before d after n s, dirs = before ++ d :: after /\ Offers scandir d n (p_attrs p) s /\ p_name p = lower n /\
     forall d' n' a' s', In d' before -> Offers scandir d' n' a' s' -> lower n' <> lower n) /\
  (forall d n a s, In d dirs -> Offers scandir d n a s -> exists p, In p r /\ p_name p = lower n).
Proof. exact load_all_first. Qed.
Print Assumptions C113_all.
(** No plugin can take the place of one that comes with ff *)
Theorem C113_builtin : forall scandir debug builtin contrib user checkout v r,
  load_all scandir debug builtin contrib user checkout v = Ok r ->
  forall n a s, Offers scandir builtin n a s ->
  exists n' s' p, In p r /\ p_name p = lower n /\ lower n' = lower n /\ Offers scandir builtin n' (p_attrs p) s'.
Proof. exact load_all_builtin. Qed.
Print Assumptions C113_builtin.
(** One broken file is enough, and nothing else is an error *)
Theorem C113_error : forall scandir dirs e, load_directories scandir dirs = Err e ->
  e = PluginErr /\ exists d, In d dirs /\ (Broken scandir d \/ exists n a, Offers scandir d n a false).
Proof. exact load_error. Qed.
Print Assumptions C113_error.
Theorem C113_broken : forall scandir dirs d, In d dirs -> Broken scandir d -> load_directories scandir dirs = Err PluginErr.
Proof. exact load_broken. Qed.
Print Assumptions C113_broken.
(** Whatever comes in directories after [pre]: full names keep their meaning, and
    so do the names of the attributes of files *)
Theorem C113_full_names : forall scandir pre more r r0,
  load_directories scandir (pre ++ more) = Ok r -> load_directories scandir pre = Ok r0 ->
  forall a t, get_attribute_type r0 a = Ok t -> get_attribute_type r a = Ok t.
Proof. exact full_names. Qed.
Print Assumptions C113_full_names.
Theorem C113_file_names : forall scandir pre more r r0 n t,
  load_directories scandir (pre ++ more) = Ok r -> load_directories scandir pre = Ok r0 ->
  get_attribute_type r0 ($"file", n) = Ok t -> ~ In 46%N n -> parse_attribute r n = Ok ($"file", n).
Proof. exact file_names. Qed.
Print Assumptions C113_file_names.
(** The order in which os.scandir gives the files does not matter, if no two
    plugins in one directory have the same name *)
Theorem C113_order_partial : forall scandir scandir' dirs,
  (forall d, In d dirs -> match scandir d, scandir' d with
    | Some l, Some l' => Permutation l l' /\ exists names, Names l names /\ NoDup names
    | None, None => True
    | _, _ => False end) ->
  match load_directories scandir dirs, load_directories scandir' dirs with
  | Ok r, Ok r' => Permutation r r'
  | Err e, Err e' => e = e'
  | _, _ => False
  end.
Proof. exact load_order. Qed.
Print Assumptions C113_order_partial.

Definition entry_ (name : str) (objects : list object) : dirent := Dirent name true (Some objects).
Definition ex_dirs (d : str) : option (list dirent) :=
  if str_eqb d ($"/b") then Some [entry_ ($"__init__.py") [Class ($"Hidden") [] true]; entry_ ($"file.py") [Other; Class ($"File") [($"size", TSize)] true];
    entry_ ($"grep.py") [Class ($"Grep") [($"lines", TListOfStrings)] true]; Dirent ($"d.py") false None]
  else if str_eqb d ($"/u") then Some [entry_ ($"x.py") [Class ($"GREP") [] false; Class ($"Mine") [($"lines", TNumber); ($"size", TNumber)] true]; Dirent ($"notes.txt") true None]
  else None.
(** A plugin of the user makes the short name of another attribute ambiguous *)
Theorem C113_short_refuted : exists scandir pre more r r0 n,
  load_directories scandir pre = Ok r0 /\ load_directories scandir (pre ++ more) = Ok r /\
  parse_attribute r0 n = Ok ($"grep", n) /\ parse_attribute r n = Err BadAttributeError.
Proof. exists ex_dirs, [$"/b"; $"/c"], [$"/u"]. eexists _, _, ($"lines"). vm_compute. repeat split. Qed.
Print Assumptions C113_short_refuted.
(** Two plugins of one name in one directory: which one is taken depends on the order *)
Theorem C113_order_refuted : exists l l' r r', Permutation l l' /\ load_directories (fun _ => Some l) [$"d"] = Ok r /\
  load_directories (fun _ => Some l') [$"d"] = Ok r' /\ ~ Permutation r r'.
Proof.
  exists [entry_ ($"a.py") [Class ($"A") [($"y", TString)] true]; entry_ ($"b.py") [Class ($"a") [] true]],
         [entry_ ($"b.py") [Class ($"a") [] true]; entry_ ($"a.py") [Class ($"A") [($"y", TString)] true]].
  eexists _, _. split; [apply perm_swap|]. split; [vm_compute; reflexivity|]. split; [vm_compute; reflexivity|].
  intros P. apply Permutation_length_1 in P. discriminate P.
Qed.
Print Assumptions C113_order_refuted.

Example C113_example :
  iter_plugin_dirs false ($"/b") ($"/c") ($"/u") (Some ($"/g")) (Some ($":/x::y:")) = [$"/b"; $"/c"; $"/x"; $"y"; $"/u"] /\
  iter_plugin_dirs true ($"/b") ($"/c") ($"/u") (Some ($"/g")) None = [$"/b"; $"/g"; $"/u"] /\
  load_directories ex_dirs [$"/b"; $"/c"; $"/u"] = Ok [Plugin ($"file") [($"size", TSize)]; Plugin ($"grep") [($"lines", TListOfStrings)];
    Plugin ($"mine") [($"lines", TNumber); ($"size", TNumber)]] /\
  load_directories ex_dirs [$"/u"; $"/b"] = Err PluginErr /\
  Offers ex_dirs ($"/u") ($"GREP") [] false /\
  (exists names, Names [entry_ ($"a.py") [Class ($"A") [] true; Other]; Dirent ($"n") true None] names /\ NoDup names).
Proof.
  repeat (split; [vm_compute; reflexivity|]).
  assert (F : forall d, skipped d = false -> plugin_file d) by (intros; now apply skipped_iff).
  split.
  - eexists _, _, _. split; [vm_compute; reflexivity|]. split; [left; reflexivity|]. split; [apply F; vm_compute; reflexivity|]. split; [reflexivity|now left].
  - eexists. split.
    + eapply names_file; [apply F; vm_compute; reflexivity|left; reflexivity|]. apply names_skip; [|constructor].
      intros K. apply skipped_iff in K. discriminate K.
    + vm_compute. constructor; [intros []|constructor].
Qed.
(** The user has a plugin named grep, too *)
Example C113_all_example : load_all ex_dirs false ($"/b") ($"/c") ($"/u") None None = Ok [Plugin ($"file") [($"size", TSize)]; Plugin ($"grep") [($"lines", TListOfStrings)];
    Plugin ($"mine") [($"lines", TNumber); ($"size", TNumber)]] /\
  Directories ($"/b") ($"/c") ($"/u") None [$"/b"; $"/c"; $"/u"] /\ Offers ex_dirs ($"/b") ($"Grep") [($"lines", TListOfStrings)] true.
Proof.
  split; [vm_compute; reflexivity|]. split; [constructor|].
  eexists _, _, _. split; [vm_compute; reflexivity|]. split; [right; right; left; reflexivity|]. split; [apply skipped_iff; vm_compute; reflexivity|]. split; [reflexivity|now left].
Qed.
