(** What the manual says about the options of ff: what each one sets, and what
    holds without any. *)
From Coq Require Import List NArith ZArith Bool.
From Verif Require Import Py ArgsModel.
Import ListNotations.
Local Open Scope N_scope.

Definition on := ABool true.
Definition off := ABool false.
Definition text (s : str) := AStr s.
Definition words (l : list str) := AStrs l.

(** Options without a value: all their spellings, the setting and its new value *)
Definition switches : list (list str * (str * aval)) :=
  [([$"-H"; $"--hide"], ($"hide", on));
   ([$"-I"; $"--ignore"], ($"ignore", on));
   ([$"--no-parent-ignore"], ($"no_parent_ignore", on));
   ([$"-L"; $"--follow"], ($"follow_symlinks", on));
   ([$"--one-file-system"; $"--mount"; $"--xdev"], ($"one_file_system", on));
   ([$"--fail"], ($"fail", on));
   ([$"-a"; $"--absolute-path"], ($"absolute_path", on));
   ([$"-R"; $"--reverse"], ($"reverse", on));
   ([$"--all"], ($"all", on));
   ([$"--si"], ($"si", on));
   ([$"-0"; $"--print0"], ($"newline", text [0]));
   ([$"--json"], ($"json", text ($"json")));
   ([$"--jsonl"; $"--ndjson"], ($"json", text ($"jsonl")));
   ([$"-1"], ($"limit", ASlice 0 (Some 1%Z)));
   ([$"--no-cache"], ($"cache", ANone));
   ([$"-v"; $"--verbose"],
    ($"output", words [$"mode:h"; $"links"; $"user:h"; $"group:h"; $"size:5h"; $"time:h"; $"path:h"]));
   ([$"--clean-cache"], ($"action", text ($"clean")));
   ([$"--version"], ($"action", text ($"version")));
   ([$"--help-full"], ($"action", text ($"full")));
   ([$"--help-attributes"], ($"action", text ($"attributes")));
   ([$"--help-plugins"], ($"action", text ($"plugins")));
   ([$"--help-types"], ($"action", text ($"types")))].
(** Options with a value, the setting and the kind of value *)
Definition settings : list (list str * (str * conv)) :=
  [([$"--cache"], ($"cache", TStr));
   ([$"-j"; $"--jobs"], ($"jobs", TJobs));
   ([$"--ignore-files"], ($"ignore_files", TSet));
   ([$"-d"; $"--depth"], ($"depth", TRanges));
   ([$"-c"; $"--case"], ($"case", TStr));
   ([$"--halt"; $"--halt-on-error"], ($"halt", TStr));
   ([$"-C"; $"--color"], ($"color", TStr));
   ([$"-l"; $"--limit"], ($"limit", TSlice));
   ([$"-o"; $"--output"], ($"output", TList));
   ([$"--sep"], ($"separator", TStr))].
(** Options whose value may be missing: what is set then *)
Definition optional : list (list str * (str * conv * aval)) :=
  [([$"-S"; $"--sort"], ($"sort", TList, words [$"file.path"]));
   ([$"--count"], ($"count", TList, words [[]]));
   ([$"-h"; $"--help"], ($"help", TStr, text ($"all")))].
(** Options that may be given several times *)
Definition several : list (list str * str) :=
  [([$"-D"; $"--directory"], $"directories"); ([$"-e"; $"--exclude"], $"exclude")].
(** Without any argument; [cpus], [cache] and [color] are the defaults that
    depend on the environment. *)
Definition initially (cpus : Z) (cache color : str) : list (str * aval) :=
  [($"tests", words []); ($"directories", words []); ($"exclude", words []);
   ($"hide", off); ($"ignore", off); ($"no_parent_ignore", off); ($"follow_symlinks", off);
   ($"one_file_system", off); ($"fail", off); ($"absolute_path", off); ($"reverse", off); ($"all", off);
   ($"si", off); ($"newline", text [10]); ($"output", words [$"path"]); ($"separator", text [32]);
   ($"case", text ($"smart")); ($"halt", text ($"never")); ($"color", text color);
   ($"ignore_files", words [$".ignore"; $".gitignore"; $".fdignore"; $".ffignore"]);
   ($"cache", text cache); ($"jobs", ANum cpus);
   ($"depth", ANone); ($"limit", ANone); ($"json", ANone); ($"sort", ANone); ($"count", ANone);
   ($"exec", ANone); ($"exec_batch", ANone); ($"action", ANone); ($"help", ANone)].
(** Everything else stays as it is. *)
Definition only (ns : str -> aval) (d : str) (x : aval) (ns' : str -> aval) : Prop :=
  ns' d = x /\ forall d', d' <> d -> ns' d' = ns d'.
(** A value that is no option *)
Definition no_dash (s : str) : Prop := forall t, s <> 45 :: t.
(** No command was given: everything after -x and -X belongs to the command. *)
Definition no_cmd (ns : str -> aval) : Prop := ns ($"exec") = ANone /\ ns ($"exec_batch") = ANone.
