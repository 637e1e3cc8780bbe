(** C120: The examples of the manual find what they are said to find.  In all
    theorems there may be any other plugins, besides the file plugin that comes
    with ff. *)
From Coq Require Import List NArith ZArith Bool Lia.
From Verif Require TimeModel.
From Verif Require Import Py PathSpec PathModel EntrySpec ExprSpec ExprProofs GrammarSpec ParserModel ParserProofs EntryModel TypeModel RegistryModel
  TestModel TestProofs ArgumentsModel SearchModel DocSpec DocProofs.
Import ListNotations.
Local Open Scope Z_scope.

Section Examples.
  Variable R : Type.
  Variable rcompile : str -> res R.
  Variable rsearch : R -> str -> bool.
  Variable parse_time : str -> res Z.
  Variable debug : bool.
  Variable case : case_mode.
  Variable registered : list plugin.
  Variable init_plugin : str -> res unit.
  Variable reference_value : str * str -> str -> res value.
  Variable score : test R -> Z.
  Variable other : entry -> str -> option value.
  Variable plugin_value : entry -> str * str -> option value.
  Notation resolves := (resolves registered init_plugin).
  Notation matched := (search_matched R rcompile rsearch parse_time debug case registered init_plugin reference_value score other plugin_value).
  Notation file_plugin_ready := (find_plugin registered ($"file") = Some file_plugin /\ init_plugin ($"file") = Ok tt).

  (** Expressions that only differ in how brackets, keywords and tests are
      written find the same, or fail in the same way. *)
  Theorem C120_spelling : forall a b e, Forall2 Same (a_tests a) (a_tests b) -> matched a e = matched b e.
  Proof. exact (fun a b e => spelling R rcompile rsearch parse_time debug case registered init_plugin reference_value score other plugin_value a e b). Qed.

  (** ff type=f: regular files *)
  Theorem C120_regular : forall a e, file_plugin_ready -> a_tests a = [$"type=f"] ->
    exists b, matched a e = Ok b /\ (b = true <-> Regular e).
  Proof. exact (fun a e H => find_regular R rcompile rsearch parse_time debug case registered init_plugin reference_value score other plugin_value a e (proj1 H) (proj2 H)). Qed.
  (** ff hidden=yes /home/user: what is hidden below it *)
  Theorem C120_hidden : forall a e names st, file_plugin_ready ->
    root (e_start e) = $"/home/user" ->
    names <> [] -> Forall name_ok names -> mk_entry (e_start e) (walk_relpath names) st = Ok e ->
    a_tests a = [$"hidden=yes"] -> exists b, matched a e = Ok b /\ (b = true <-> Exists dotted names).
  Proof.
    exact (fun a e names st H => find_hidden R rcompile rsearch parse_time debug case registered init_plugin reference_value score other plugin_value a e (proj1 H) (proj2 H) names st).
  Qed.
  (** ff 'name%*.txt': names that end with .txt; a newline may follow. *)
  Theorem C120_glob : forall a e, file_plugin_ready -> ~ In SLASH (e_name e) -> a_tests a = [$"name%*.txt"] ->
    exists b, matched a e = Ok b /\
      (b = true <-> exists x y, letters case (e_name e) = x ++ $".txt" ++ y /\ (y = [] \/ y = [NL])).
  Proof. exact (fun a e H => find_txt R rcompile rsearch parse_time debug case registered init_plugin reference_value score other plugin_value a e (proj1 H) (proj2 H)). Qed.

  (** ff type=f perm:700, ff type=f perm:u+x, ff exec=yes *)
  Theorem C120_perm_700 : forall a e, file_plugin_ready -> a_tests a = [$"type=f"; $"perm:700"] ->
    exists b, matched a e = Ok b /\ (b = true <-> Regular e /\ Allows e 8 /\ Allows e 7 /\ Allows e 6).
  Proof. exact (fun a e H => find_perm_700 R rcompile rsearch parse_time debug case registered init_plugin reference_value score other plugin_value a e (proj1 H) (proj2 H)). Qed.
  Theorem C120_perm_ux : forall a e, file_plugin_ready -> a_tests a = [$"type=f"; $"perm:u+x"] ->
    exists b, matched a e = Ok b /\ (b = true <-> Regular e /\ Allows e 6).
  Proof. exact (fun a e H => find_perm_ux R rcompile rsearch parse_time debug case registered init_plugin reference_value score other plugin_value a e (proj1 H) (proj2 H)). Qed.
  Theorem C120_exec : forall a e, file_plugin_ready -> a_tests a = [$"exec=yes"] ->
    exists b, matched a e = Ok b /\ (b = true <-> ~ Directory e /\ ~ Symlink e /\ (Allows e 6 \/ Allows e 3 \/ Allows e 0)).
  Proof. exact (fun a e H => find_exec R rcompile rsearch parse_time debug case registered init_plugin reference_value score other plugin_value a e (proj1 H) (proj2 H)). Qed.
  (** Each of them finds what the one before finds. *)
  Theorem C120_executable_partial : forall a1 a2 a3 e, file_plugin_ready ->
    a_tests a1 = [$"type=f"; $"perm:700"] -> a_tests a2 = [$"type=f"; $"perm:u+x"] -> a_tests a3 = [$"exec=yes"] ->
    (matched a1 e = Ok true -> matched a2 e = Ok true) /\ (matched a2 e = Ok true -> matched a3 e = Ok true).
  Proof.
    exact (fun a1 a2 a3 e H => executable_order R rcompile rsearch parse_time debug case registered init_plugin reference_value score other plugin_value (proj1 H) (proj2 H) a1 a2 a3 e).
  Qed.
  (** But only the second finds the files the user can execute: the first misses
      some, the third finds others, also things that are no regular files. *)
  Theorem C120_executable_refuted : forall a1 a2 a3, file_plugin_ready ->
    a_tests a1 = [$"type=f"; $"perm:700"] -> a_tests a2 = [$"type=f"; $"perm:u+x"] -> a_tests a3 = [$"exec=yes"] ->
    (exists e, Regular e /\ Allows e 6 /\ matched a1 e = Ok false /\ matched a2 e = Ok true) /\
    (exists e, Regular e /\ ~ Allows e 6 /\ matched a2 e = Ok false /\ matched a3 e = Ok true) /\
    (exists e, ~ Regular e /\ matched a3 e = Ok true).
  Proof.
    exact (fun a1 a2 a3 H => executable_wrong R rcompile rsearch parse_time debug case registered init_plugin reference_value score other plugin_value (proj1 H) (proj2 H) a1 a2 a3).
  Qed.

  (** ff ext=mp4 size+=100M: at least 100 mebibytes *)
  Theorem C120_big_partial : forall a e, file_plugin_ready -> a_tests a = [$"ext=mp4"; $"size+=100M"] ->
    exists b, matched a e = Ok b /\
      (b = true <-> letters case (e_ext e) = $"mp4" /\ Regular e /\ 100 * 1024 * 1024 <= st_size (e_status e)).
  Proof. exact (fun a e H => find_big R rcompile rsearch parse_time debug case registered init_plugin reference_value score other plugin_value a e (proj1 H) (proj2 H)). Qed.
  (** So it is not only those that are bigger. *)
  Theorem C120_big_refuted : forall a, file_plugin_ready -> a_tests a = [$"ext=mp4"; $"size+=100M"] ->
    exists e, ~ 100 * 1024 * 1024 < st_size (e_status e) /\ matched a e = Ok true.
  Proof. exact (fun a H => bigger_wrong R rcompile rsearch parse_time debug case registered init_plugin reference_value score other plugin_value (proj1 H) (proj2 H) a). Qed.
  (** ff type=f links+1: several hard links *)
  Theorem C120_links : forall a e n, file_plugin_ready -> other e ($"links") = Some (VInt n) -> a_tests a = [$"type=f"; $"links+1"] ->
    exists b, matched a e = Ok b /\ (b = true <-> Regular e /\ 1 < n).
  Proof. exact (fun a e n H => find_links R rcompile rsearch parse_time debug case registered init_plugin reference_value score other plugin_value a e (proj1 H) (proj2 H) n). Qed.
  (** ff type=f mtime+={}foo: not older than foo *)
  Theorem C120_newer_partial : forall a e n m, file_plugin_ready ->
    reference_value ($"file", $"mtime") ($"foo") = Ok (VInt n) -> other e ($"mtime") = Some (VInt m) ->
    a_tests a = [$"type=f"; $"mtime+={}foo"] -> exists b, matched a e = Ok b /\ (b = true <-> Regular e /\ n <= m).
  Proof. exact (fun a e n m H => find_newer R rcompile rsearch parse_time debug case registered init_plugin reference_value score other plugin_value a e (proj1 H) (proj2 H) n m). Qed.
  (** So foo itself is found, and everything that is as old. *)
  Theorem C120_newer_refuted : forall a e n, file_plugin_ready -> a_tests a = [$"type=f"; $"mtime+={}foo"] ->
    reference_value ($"file", $"mtime") ($"foo") = Ok (VInt n) -> Regular e -> other e ($"mtime") = Some (VInt n) -> matched a e = Ok true.
  Proof. exact (fun a e n H => newer_wrong R rcompile rsearch parse_time debug case registered init_plugin reference_value score other plugin_value (proj1 H) (proj2 H) a e n). Qed.

  (** ff members:setup.py: archives with a member whose path contains setup.py *)
  Theorem C120_members_partial : forall a e l, resolves ($"members") ($"tar", $"members") TListOfStrings ->
    plugin_value e ($"tar", $"members") = Some (VList l) -> a_tests a = [$"members:setup.py"] ->
    exists b, matched a e = Ok b /\ (b = true <-> exists x, In x l /\ Contains ($"setup.py") (letters case x)).
  Proof. exact (fun a e l => find_members R rcompile rsearch parse_time debug case registered init_plugin reference_value score other plugin_value a e l). Qed.
  (** ff sonames=libz.so.1 *)
  Theorem C120_sonames : forall a e l, resolves ($"sonames") ($"elf", $"sonames") TListOfStrings ->
    plugin_value e ($"elf", $"sonames") = Some (VList l) -> a_tests a = [$"sonames=libz.so.1"] ->
    exists b, matched a e = Ok b /\ (b = true <-> exists x, In x l /\ letters case x = $"libz.so.1").
  Proof. exact (fun a e l => find_sonames R rcompile rsearch parse_time debug case registered init_plugin reference_value score other plugin_value a e l). Qed.
End Examples.
Print Assumptions C120_spelling.
Print Assumptions C120_regular.
Print Assumptions C120_hidden.
Print Assumptions C120_glob.
Print Assumptions C120_perm_700.
Print Assumptions C120_perm_ux.
Print Assumptions C120_exec.
Print Assumptions C120_executable_partial.
Print Assumptions C120_executable_refuted.
Print Assumptions C120_big_partial.
Print Assumptions C120_big_refuted.
Print Assumptions C120_links.
Print Assumptions C120_newer_partial.
Print Assumptions C120_newer_refuted.
Print Assumptions C120_members_partial.
Print Assumptions C120_sonames.

(** ff type=f time+=1h30m: modified within the last 90 minutes; clock is in
    microseconds. *)
Theorem C120_recent : forall R rcompile rsearch timestamp now clock debug case registered init_plugin reference_value score other plugin_value a e m,
  find_plugin registered ($"file") = Some file_plugin /\ init_plugin ($"file") = Ok tt ->
  90 * 60 * 1000000 <= clock -> other e ($"time") = Some (VInt m) -> a_tests a = [$"type=f"; $"time+=1h30m"] ->
  exists b, search_matched R rcompile rsearch (TimeModel.parse_time timestamp now clock) debug case registered init_plugin reference_value score other plugin_value a e = Ok b /\
    (b = true <-> Regular e /\ clock / 1000000 - 90 * 60 <= m).
Proof. exact (fun R rc rs ts now cl d c rg i rf sc o p a e m H => find_recent_clock R rc rs ts now cl d c rg i rf sc o p a e m (proj1 H) (proj2 H)). Qed.
Print Assumptions C120_recent.

(** ** Examples *)
Definition ex_registered : list plugin := [file_plugin; Plugin ($"tar") [($"members", TListOfStrings)]; Plugin ($"elf") [($"sonames", TListOfStrings)];
  Plugin ($"medium") [($"height", TNumber)]].
Definition ex_init (_ : str) : res unit := Ok tt.
Definition ex_args (l : list str) : pargs := PArgs l [] [] None false false false None ($"auto") false None None None [$"path"] None None false.
Definition ex_entry (m : Z) (n : str) : entry := Entry (Start ($".") ($"/home") 1) n (Status m 10 1) n ($"/home/" ++ n) [] n false.
Definition ex_other (e : entry) (n : str) : option value :=
  if str_eqb n ($"links") then Some (VInt 2) else if str_eqb n ($"mtime") || str_eqb n ($"time") then Some (VInt 7000) else None.
Definition ex_plugin (e : entry) (x : str * str) : option value :=
  if str_eqb (snd x) ($"members") then Some (VList [$"src/setup.py"; $"README"])
  else if str_eqb (snd x) ($"height") then Some (VInt 800) else Some (VList [$"libc.so.6"; $"libz.so.1"]).
Definition ex_matched (l : list str) (m : Z) (n : str) : res bool :=
  search_matched str (fun s => Ok s) (fun _ _ => false) (TimeModel.parse_time (fun _ => Ok 0) (TimeModel.DT 2020 5 12 12 0 0) 9000000000) false CaseSmart ex_registered ex_init
    (fun _ _ => Ok (VInt 6000)) (fun _ => 0) ex_other ex_plugin (ex_args l) (ex_entry m n).
Example C120_example :
  find_plugin ex_registered ($"file") = Some file_plugin /\ ex_init ($"file") = Ok tt /\
  resolves ex_registered ex_init ($"members") ($"tar", $"members") TListOfStrings /\
  resolves ex_registered ex_init ($"sonames") ($"elf", $"sonames") TListOfStrings /\
  map (fun l => ex_matched l 33261 ($"a.TXT")) [[$"type=f"]; [$"hidden=yes"]; [$"name%*.txt"]; [$"type=f"; $"perm:700"]; [$"exec=yes"];
    [$"ext=mp4"; $"size+=100M"]; [$"type=f"; $"links+1"]; [$"type=f"; $"mtime+={}foo"]; [$"type=f"; $"time+=1h30m"]; [$"members:setup.py"]; [$"sonames=libz.so.1"]] =
  map Ok [true; false; true; true; true; false; true; true; true; true; true].
Proof. split; [reflexivity|]. split; [reflexivity|]. split; [split; reflexivity|]. split; [split; reflexivity|]. vm_compute. reflexivity. Qed.
Definition ex_hidden : entry := Entry (Start ($"/home/user") ($"/home/user") 1) ($".config/ff") (Status 33188 10 1)
  ($"/home/user/.config/ff") ($"/home/user/.config/ff") ($"/home/user/.config") ($"ff") false.
Example C120_hidden_example : root (e_start ex_hidden) = $"/home/user" /\ Forall name_ok [$".config"; $"ff"] /\
  mk_entry (e_start ex_hidden) (walk_relpath [$".config"; $"ff"]) (Status 33188 10 1) = Ok ex_hidden /\ Exists dotted [$".config"; $"ff"].
Proof.
  split; [reflexivity|]. split; [repeat constructor; cbn; intuition discriminate|].
  split; [vm_compute; reflexivity|]. left. exists ($"config"). reflexivity.
Qed.
(** A member that is not called setup.py *)
Theorem C120_members_refuted : exists l, ~ (exists x, In x l /\ (x = $"setup.py" \/ exists d, x = d ++ $"/setup.py")) /\
  search_matched str (fun s => Ok s) (fun _ _ => false) (fun _ => Ok 0) false CaseSmart ex_registered ex_init (fun _ _ => Ok (VInt 0)) (fun _ => 0)
    ex_other (fun _ _ => Some (VList l)) (ex_args [$"members:setup.py"]) (ex_entry 33188 ($"a.tar")) = Ok true.
Proof.
  exists [$"mysetup.py"]. split; [|vm_compute; reflexivity]. intros (x & [<-|[]] & [E|(d & E)]); [discriminate E|].
  apply (f_equal (@rev _)) in E. rewrite rev_app_distr in E. vm_compute in E. discriminate E.
Qed.
Print Assumptions C120_members_refuted.
(** EXAMPLES.md:68-79 *)
Example C120_spelling_example : Forall2 Same video_short video_long /\ ex_matched video_short 33188 ($"a.mkv") = Ok true /\ ex_matched video_long 33188 ($"a.mkv") = Ok true /\
  ex_matched video_short 33188 ($"a.avi") = Ok false.
Proof. exact (conj video_same (conj eq_refl (conj eq_refl eq_refl))). Qed.
