(** Which files of a tree are ignored, in terms of names and patterns. *)
From Coq Require Import List NArith ZArith Bool.
From Verif Require Import Py PathSpec GlobSpec IgnoreSpec.
From Verif Require Import EntryModel TypeModel RegistryModel ArgumentsModel SearchModel SearchSpec.
Import ListNotations.

Section Ignored.
  (** The names of ignore files, and the patterns in the file of this name in a
      directory; None: it cannot be read. *)
  Variable ignore_files : list str.
  Variable patterns : list str -> str -> option (list pattern).

  (** The ignore files in a directory, in the order in which they are found *)
  Definition own (here : list str) (l : list file) : list (list str * str) :=
    map (fun f => (here, f_name f)) (filter (fun f => str_in (f_name f) ignore_files) l).
  (** The ignore files in the directories on the way to the end of names: in the
      directory [here], which contains l, and in those below it *)
  Inductive OnTheWay : list str -> list file -> list str -> list (list str * str) -> Prop :=
  | way_here here l n : OnTheWay here l [n] (own here l)
  | way_below here l f names fs : In f l -> OnTheWay (here ++ [f_name f]) (f_kids f) names fs ->
      OnTheWay here l (f_name f :: names) (own here l ++ fs).
  (** Their patterns in order *)
  Definition rules_of (fs : list (list str * str)) : list tree_rule :=
    flat_map (fun '(d, n) => match patterns d n with Some ps => map (fun p => (d, n, p)) ps | None => [] end) fs.
  (** The last pattern that applies says whether something is ignored. *)
  Definition Ignored (fs : list (list str * str)) (names : list str) (is_dir : bool) (by_ : list str * str) : Prop :=
    exists p, Decided (rule_at names is_dir) None (rules_of fs) (Some (by_, p)) /\ p_negated p = false.

  (** What is in the file system *)
  Variable read : str -> option (list str).
  Definition written (f : list str * str) : Prop :=
    let '(d, n) := f in
    match patterns d n with
    | None => read (file_in d n) = None
    | Some ps => exists lines, read (file_in d n) = Some lines /\ pattern_lines lines = map pattern_text ps /\ Forall well_formed ps
    end.
End Ignored.

(** The plugin "ignore" is the only one with an attribute "ignored". *)
Definition ignore_ready (registered : list plugin) (init_plugin : str -> res unit) : Prop :=
  find_plugin registered ($"ignore") = Some (Plugin ($"ignore") [($"ignored", TBoolean); ($"path", TString)]) /\
  get_plugin_for_attribute registered ($"ignored") = [$"ignore"] /\ init_plugin ($"ignore") = Ok tt.

(** What is assumed of the start directory d of a search: comps are the names
    on the way from the root to it, above the ignore files of directories above
    that count.  Names have no newlines, patterns are well-formed. *)
Section Tree.
  Variable ignore_files : list str.
  Variable patterns : list str -> str -> option (list pattern).
  Variable read : str -> option (list str).
  Definition orderly (l : list file) (comps : list str) (above : list (list str * str)) : Prop :=
    Forall tree_component comps /\
    (forall f, In f above -> name_ok (snd f) /\ (exists rest, comps = fst f ++ rest) /\ written patterns read f) /\
    (forall names f, Place l names f -> Forall tree_component names) /\
    (forall names f fs, Place l names f -> OnTheWay ignore_files comps l names fs -> Forall (written patterns read) fs).
End Tree.

(** The values of the plugin "ignore" for everything that a search with the
    arguments a comes across; all others are unchanged. *)
Section Values.
  Variable ignore_files : list str.
  Variable patterns : list str -> str -> option (list pattern).
  Variable cwd : str.
  Variable device : str -> Z.
  Variable listing : str -> list file.
  Variable comps : str -> list str.
  Variable above : str -> list (list str * str).
  (** e, at the end of names, is ignored because of the file by_. *)
  Definition ignored_by (a : pargs) (d : str) (names : list str) (f : file) (by_ : list str * str) : Prop :=
    exists fs is_dir, OnTheWay ignore_files (comps d) (contents cwd listing a d) names fs /\
      (is_dir = true <-> directory (f_status f)) /\ Ignored patterns (above d ++ fs) (comps d ++ names) is_dir by_.
  Definition ignore_values (a : pargs) (before after : entry -> str * str -> option value) : Prop :=
    (forall d names f e, In d (a_directories a) -> Place (contents cwd listing a d) names f -> entry_at cwd device a d names f e ->
      (exists by_, ignored_by a d names f by_ /\ after e ($"ignore", $"ignored") = Some (VBool true) /\
         after e ($"ignore", $"path") = Some (VStr (file_in (fst by_) (snd by_)))) \/
      (~ (exists by_, ignored_by a d names f by_) /\ after e ($"ignore", $"ignored") = Some (VBool false) /\
         after e ($"ignore", $"path") = Some (VStr []))) /\
    (forall e at_, fst at_ <> $"ignore" -> after e at_ = before e at_).
  (** What is assumed of the start directories *)
  Variable read : str -> option (list str).
  Variable parents : str -> list str.
  Definition orderly_starts (a : pargs) : Prop :=
    forall d, In d (a_directories a) ->
      absroot (start_dir cwd device (absolute_paths a) d) = abs_dir (comps d) /\
      parents d = map (fun f => file_in (fst f) (snd f)) (above d) /\
      orderly ignore_files patterns read (contents cwd listing a d) (comps d) (above d).
End Values.

(** The same arguments without -I *)
Definition no_ignore (a : pargs) : pargs :=
  PArgs (a_tests a) (a_directories a) (a_exclude a) (a_depth a) false (a_one_file_system a) (a_hide a)
    (a_json a) (a_color a) (a_absolute_path a) (a_count a) (a_limit a) (a_sort a) (a_output a) (a_exec a) (a_exec_batch a) (a_profile a).
