(** C88-C93: what the plugins grep, shebang, py, pacman, tar, mime and the hash
    sums say. *)
From Coq Require Import List NArith ZArith Bool Lia.
From Verif Require Import Py SortLib PathSpec TypeSpec TypeModel RegistryModel CountModel GitModel TestModel TestProofs SearchSpec PluginModel PluginSpec PluginProofs.
Import ListNotations.
Local Open Scope nat_scope.

(** * C88: the lines of a text file *)

(** Every text has lines, and only one list of them; grep counts them. *)
Theorem C88_count : forall s, exists ls, TextLines s ls /\ (forall ls', TextLines s ls' -> ls' = ls) /\
  get_value (grep true (Decoded s)) ($"text") = Ok (VBool true) /\
  get_value (grep true (Decoded s)) ($"linecount") = Ok (VInt (Z.of_nat (length ls))).
Proof. intros s. destruct (grep_text s) as (ls & H & T & C & _). exists ls. split; [exact H|]. split; [exact (fun ls' H' => text_unique s ls' ls H' H)|]. exact (conj T C). Qed.
Print Assumptions C88_count.
(** grep.lines:v: a line contains v. *)
Theorem C88_contains : forall R rcompile rsearch parse_time debug case s ls v, TextLines s ls -> ~ In LF v ->
  exists x, get_value (grep true (Decoded s)) ($"lines") = Ok x /\
  (Sat R rcompile rsearch parse_time debug case TListOfStrings ($":") v x <->
   exists l b, In (l, b) ls /\ Sat R rcompile rsearch parse_time debug case TString ($":") v (VStr l)).
Proof. intros R rc rs pt dbg case s ls v H N. destruct (grep_text s) as (ls' & H' & _ & _ & L). rewrite (text_unique s ls' ls H' H) in L. exists (VList (map shown ls)). exact (conj L (lines_contain R rc rs pt dbg case s ls v H N)). Qed.
Print Assumptions C88_contains.
(** grep.lines=v is not true although v is a line: the lines have their ends. *)
Theorem C88_equal_refuted : exists s ls v, TextLines s ls /\ In (v, true) ls /\
  forall R rcompile rsearch parse_time debug case, exists x, get_value (grep true (Decoded s)) ($"lines") = Ok x /\
    Sat R rcompile rsearch parse_time debug case TString ($"=") v (VStr v) /\
    ~ Sat R rcompile rsearch parse_time debug case TListOfStrings ($"=") v x.
Proof.
  exists ($"foo" ++ [LF]), [($"foo", true)], ($"foo"). split.
  { apply (text_line ($"foo") [LF] [] []); [split; vm_compute; intros K; repeat (destruct K as [K|K]; [discriminate K|]); destruct K|now left|constructor]. }
  split; [now left|]. intros R rc rs pt dbg case. exists (VList [$"foo" ++ [LF]]). split; [reflexivity|].
  assert (N : ~ In LF ($"foo")) by (vm_compute; intros K; repeat (destruct K as [K|K]; [discriminate K|]); destruct K).
  split.
  - apply sat_text; [now left|]. assert (D : folding case ($"foo") \/ ~ folding case ($"foo")).
    { destruct case; [left; right; split; [reflexivity|]; intros c K; vm_compute in K; destruct K as [<-|[<-|[<-|[]]]]; unfold upper_case; lia|left; now left|right; intros [K|[K _]]; discriminate K]. }
    destruct D as [D|D].
    + exists (lower ($"foo")), (lower ($"foo")). split; [now constructor|]. split; [now constructor|]. left. split; reflexivity.
    + exists ($"foo"), ($"foo"). split; [now constructor|]. split; [now constructor|]. left. split; reflexivity.
  - intros S. apply sat_lines in S as (x & [<-|[]] & S). apply (equal_shown R rc rs pt dbg case ($"foo") ($"foo") true N) in S as [S _]. discriminate S.
Qed.
Print Assumptions C88_equal_refuted.
(** It is true if v is the last line and this line has no end. *)
Theorem C88_equal_partial : forall R rcompile rsearch parse_time debug case s ls v, TextLines s ls -> ~ In LF v ->
  exists x, get_value (grep true (Decoded s)) ($"lines") = Ok x /\
  (Sat R rcompile rsearch parse_time debug case TListOfStrings ($"=") v x <->
   exists l ls', ls = ls' ++ [(l, false)] /\ Sat R rcompile rsearch parse_time debug case TString ($"=") v (VStr l)).
Proof. intros R rc rs pt dbg case s ls v H N. destruct (grep_text s) as (ls' & H' & _ & _ & L). rewrite (text_unique s ls' ls H' H) in L. exists (VList (map shown ls)). exact (conj L (lines_equal_last R rc rs pt dbg case s ls v H N)). Qed.
Print Assumptions C88_equal_partial.
Example C88_example : exists ls, TextLines ($"one" ++ [CR; LF] ++ $"two" ++ [CR] ++ [LF] ++ [LF] ++ $"three") ls /\ length ls = 4 /\ In ($"three", false) ls.
Proof.
  destruct (grep_text ($"one" ++ [CR; LF] ++ $"two" ++ [CR] ++ [LF] ++ [LF] ++ $"three")) as (ls & H & _ & C & L). exists ls. split; [exact H|].
  assert (Q : length ls = 4) by (change (Ok (VInt 4) = Ok (VInt (Z.of_nat (length ls)))) in C; injection C as C; clear -C; lia). clear C. split; [exact Q|].
  vm_compute in L. destruct ls as [|? [|? [|? [|[l b] [|]]]]]; try discriminate Q. injection L as _ _ _ L.
  right. right. right. left. destruct b; [|exact (f_equal (fun z => (z, false)) (eq_sym L))].
  exfalso. assert (L' : $"three" = l ++ [LF]) by exact L. assert (K : In LF ($"three")) by (rewrite L'; apply in_app_iff; right; now left).
  vm_compute in K. repeat (destruct K as [K|K]; [discriminate K|]). destruct K.
Qed.

(** * C89: the shebang line *)

(** The documentation says "the first line of the file if it starts with '#!'";
    but it can be any line. *)
Theorem C89_refuted : exists s v, no_shebang s /\ get_value (shebang true (Some s)) ($"shebang") = Ok (VStr v).
Proof.
  exists ($"text" ++ [LF] ++ $"#!/bin/sh"), ($"/bin/sh"). split; [|vm_compute; reflexivity].
  intros l [N [E|(rest & E)]] (r & ->).
  - discriminate E.
  - discriminate E.
Qed.
Print Assumptions C89_refuted.
Theorem C89_partial : forall s v, Shebang s v -> get_value (shebang true (Some s)) ($"shebang") = Ok (VStr v).
Proof. exact shebang_value. Qed.
Print Assumptions C89_partial.
Theorem C89_none_partial : forall s, no_lines s -> get_value (shebang true (Some s)) ($"shebang") = Err KeyErr.
Proof. exact no_value. Qed.
Print Assumptions C89_none_partial.
Example C89_example : Shebang ($"#! /bin/sh -e  " ++ LF :: $"#!other") ($" /bin/sh -e").
Proof.
  exists ($"#! /bin/sh -e  "), ($"  "). split; [|split; [reflexivity|split; [reflexivity|split]]].
  - split; [vm_compute; intros K; repeat (destruct K as [K|K]; [discriminate K|]); destruct K|right; now exists ($"#!other")].
  - intros w c E. change ($" /bin/sh -e") with ($" /bin/sh -" ++ [101%N]) in E. apply app_inj_tail in E as [_ <-]. reflexivity.
  - vm_compute. intros c K. repeat (destruct K as [<-|K]; [reflexivity|]). destruct K.
Qed.
Example C89_none_example : no_lines ($"a" ++ LF :: $"# !").
Proof.
  constructor; [vm_compute; intros [K|[]]; discriminate K|intros (r & K); discriminate K|].
  constructor; [vm_compute; intros K; repeat (destruct K as [K|K]; [discriminate K|]); destruct K|intros (r & K); discriminate K].
Qed.

(** * C90: the imports of a Python file *)

(** import a, b: b is missing. *)
Theorem C90_names_refuted : exists dirs nodes, forall l, get_value (py ($"py") (join_with [SLASH] dirs) None (Parsed nodes)) ($"imports") = Ok (VList l) -> ~ lists_imports dirs nodes l.
Proof.
  exists [$"x"], [Import [$"a"; $"b"]]. intros l E (_ & H & _). vm_compute in E. injection E as <-.
  specialize (H [$"a"; $"b"] ($"b") (or_introl eq_refl) (or_intror (or_introl eq_refl))). destruct H as [H|[]]. discriminate H.
Qed.
Print Assumptions C90_names_refuted.
(** from . import m: nothing of it is listed. *)
Theorem C90_package_refuted : exists dirs nodes, forall l, get_value (py ($"py") (join_with [SLASH] dirs) None (Parsed nodes)) ($"imports") = Ok (VList l) -> ~ lists_imports dirs nodes l.
Proof.
  exists [$"x"], [ImportFrom None 1]. intros l E (_ & _ & H). vm_compute in E. injection E as <-.
  destruct (H None 1 (or_introl eq_refl)) as (x & [] & _).
Qed.
Print Assumptions C90_package_refuted.
(** from ..m import n in a/b/c: b.c.m is listed instead of a.b.m *)
Theorem C90_relative_refuted : exists dirs nodes l x, get_value (py ($"py") (join_with [SLASH] dirs) None (Parsed nodes)) ($"imports") = Ok (VList l) /\ In x l /\
  ~ exists n, In n nodes /\ imported dirs n x.
Proof.
  exists [$"a"; $"b"; $"c"], [ImportFrom (Some ($"m")) 2], [$"b.c.m"], ($"b.c.m"). split; [vm_compute; reflexivity|]. split; [now left|].
  intros (n & [<-|[]] & I). inversion I as [| |m k a b P B Em Ek|]; subst. change (package [$"a"; $"b"; $"c"] 2) with [$"a"; $"b"] in P.
  destruct a as [|a0 [|a1 [|]]].
  - cbn [app] in P. subst b. vm_compute in Ek. discriminate Ek.
  - injection P as <- <-. vm_compute in Ek. discriminate Ek.
  - injection P as <- <- <-. now apply B.
  - discriminate P.
Qed.
Print Assumptions C90_relative_refuted.
(** Without these three forms all is listed and nothing else. *)
Theorem C90_partial : forall ext contents dirs d nodes, lower ext = $"py" -> Forall name_ok (dirs ++ [d]) -> Forall simple_node nodes ->
  exists l, get_value (py ext (join_with [SLASH] (dirs ++ [d])) contents (Parsed nodes)) ($"imports") = Ok (VList l) /\ lists_imports (dirs ++ [d]) nodes l.
Proof. exact imports_value. Qed.
Print Assumptions C90_partial.
Example C90_example : lower ($"PY") = $"py" /\ Forall name_ok ([$"a"; $"b"] ++ [$"c"]) /\
  Forall simple_node [Import [$"os.path"]; ImportFrom (Some ($"m")) 1; ImportFrom (Some ($"ast")) 0] /\
  get_value (py ($"PY") ($"a/b/c") None (Parsed [Import [$"os.path"]; ImportFrom (Some ($"m")) 1; ImportFrom (Some ($"ast")) 0])) ($"imports") =
  Ok (VList [$"ast"; $"c.m"; $"os.path"]).
Proof.
  split; [reflexivity|]. split.
  { repeat constructor; try discriminate; vm_compute; intros K; repeat (destruct K as [K|K]; [discriminate K|]); destruct K. }
  split; [repeat constructor|]. vm_compute. reflexivity.
Qed.

(** * C91: files of packages *)

(** The output of "pacman -Ql" for these files is read. *)
Definition pacman_reads (os : list owned) (path : str) (n : str) (r : res value) : Prop :=
  exists files, package_files (readlines (translate (listing os))) = Ok files /\ get_value (pacman files path) n = r.
(** A file of a package is not found by a relative path. *)
Theorem C91_path_refuted : exists cwd os path, In (os_join cwd path) (map o_path os) /\ Forall good_owned os /\
  pacman_reads os path ($"installed") (Ok (VBool false)).
Proof.
  exists ($"/usr"), [Owned ($"coreutils") ($"/usr/bin/ls") false], ($"bin/ls"). split; [now left|]. split.
  - constructor; [|constructor]. split; [discriminate|]. split.
    + vm_compute. intros c K. repeat (destruct K as [<-|K]; [reflexivity|]). destruct K.
    + exists ($"usr/bin/l"), 115%N. split; [reflexivity|]. split; [discriminate|reflexivity].
  - eexists. split; [vm_compute; reflexivity|vm_compute; reflexivity].
Qed.
Print Assumptions C91_path_refuted.
(** Nor one with a blank at the end of its name. *)
Theorem C91_blank_refuted : exists os path, In path (map o_path os) /\ pacman_reads os path ($"installed") (Ok (VBool false)).
Proof. exists [Owned ($"p") ($"/etc/x ") false], ($"/etc/x "). split; [now left|]. eexists. split; vm_compute; reflexivity. Qed.
Print Assumptions C91_blank_refuted.
(** Absolute paths of other files are right. *)
Theorem C91_partial : forall os path, Forall good_owned os -> Forall (fun o => one_line (o_path o)) os ->
  exists b, pacman_reads os path ($"installed") (Ok (VBool b)) /\ (b = true <-> exists o, In o os /\ o_path o = path).
Proof. exact installed_read. Qed.
Print Assumptions C91_partial.
(** The name is that of a package with this file. *)
Theorem C91_name_partial : forall os path, Forall good_owned os -> Forall (fun o => one_line (o_path o)) os ->
  ((exists o, In o os /\ o_path o = path /\ pacman_reads os path ($"pkgname") (Ok (VStr (o_package o)))) \/
   (~ In path (map o_path os) /\ pacman_reads os path ($"pkgname") (Err KeyErr))).
Proof. exact name_read. Qed.
Print Assumptions C91_name_partial.
Example C91_example : let os := [Owned ($"a") ($"/usr") true; Owned ($"a") ($"/usr/my file") false; Owned ($"b") ($"/usr") true] in
  Forall good_owned os /\ Forall (fun o => one_line (o_path o)) os /\ pacman_reads os ($"/usr") ($"pkgname") (Ok (VStr ($"b"))) /\
  pacman_reads os ($"/usr/my file") ($"installed") (Ok (VBool true)).
Proof.
  cbv zeta. split; [|split; [|split]].
  - repeat (constructor; [split; [discriminate|]; split; [vm_compute; intros c K; repeat (destruct K as [<-|K]; [reflexivity|]); destruct K|]|]); [| |
      |constructor].
    + exists ($"us"), 114%N. repeat split; discriminate.
    + exists ($"usr/my fil"), 101%N. repeat split; discriminate.
    + exists ($"us"), 114%N. repeat split; discriminate.
  - repeat constructor; vm_compute; intros K; repeat (destruct K as [K|K]; [discriminate K|]); destruct K.
  - eexists. split; vm_compute; reflexivity.
  - eexists. split; vm_compute; reflexivity.
Qed.

(** * C92: a file never makes a plugin fail *)
Theorem C92_grep_partial : forall f r, exists d, get_data (grep f r) = Ok d.
Proof. exact grep_data. Qed.
Print Assumptions C92_grep_partial.
Theorem C92_shebang_partial : forall f c, exists d, get_data (shebang f c) = Ok d.
Proof. exact shebang_data. Qed.
Print Assumptions C92_shebang_partial.
Theorem C92_pacman_partial : forall files path, exists d, get_data (pacman files path) = Ok d.
Proof. exact pacman_data. Qed.
Print Assumptions C92_pacman_partial.
(** A file x.tar that is not an archive: tarfile.ReadError *)
Theorem C92_tar_refuted : exists name a, get_data (tar name a) = Err PluginErr.
Proof. exists ($"x.tar"), TarReadError. vm_compute. reflexivity. Qed.
Print Assumptions C92_tar_refuted.
(** shake_128 and shake_256: every file *)
Theorem C92_hash_refuted : forall S start update name contents, get_data (hash S start update None name true (Some contents)) = Err PluginErr.
Proof. exact hash_fails. Qed.
Print Assumptions C92_hash_refuted.
(** A Python file with a null byte: ValueError *)
Theorem C92_py_refuted : forall ext dir c, lower ext = $"py" -> get_data (py ext dir c Uncaught) = Err PluginErr.
Proof. exact py_fails. Qed.
Print Assumptions C92_py_refuted.
Example C92_example : lower ($"Py") = $"py".
Proof. reflexivity. Qed.

(** * C93: hash sums *)

(** If the algorithm sums up what it is given piece by piece (hashlib), the sum is
    that of the whole contents. *)
Theorem C93_sum : forall S start update hexdigest digest name contents,
  (forall chunks, hexdigest (fold_left update chunks start) = digest (concat chunks)) ->
  get_value (hash S start update (Some hexdigest) name true (Some contents)) name = Ok (VStr (digest contents)).
Proof. exact hash_value. Qed.
Print Assumptions C93_sum.
(** An algorithm of this kind: its state is all that it was given. *)
Example C93_example : forall chunks, rev (fold_left (fun s x => s ++ x) chunks []) = rev (concat chunks : str).
Proof. intros chunks. f_equal. change (concat chunks) with ([] ++ concat chunks). generalize (@nil char). induction chunks as [|c chunks IH]; intros s; [now rewrite app_nil_r|]. cbn [fold_left concat]. rewrite IH. now rewrite app_assoc. Qed.

(** * C94: types of files, members of archives *)

(** mime.mime is mime.type, a slash and mime.subtype. *)
Theorem C94_mime : forall m encoding name, In SLASH m -> exists t p, ~ In SLASH t /\ m = t ++ $"/" ++ p /\
  get_value (mime true (Some (m, encoding, name))) ($"mime") = Ok (VStr m) /\
  get_value (mime true (Some (m, encoding, name))) ($"type") = Ok (VStr t) /\
  get_value (mime true (Some (m, encoding, name))) ($"subtype") = Ok (VStr p) /\
  get_value (mime true (Some (m, encoding, name))) ($"encoding") = Ok (VStr encoding) /\
  get_value (mime true (Some (m, encoding, name))) ($"name") = Ok (VStr name).
Proof. exact mime_parts. Qed.
Print Assumptions C94_mime.
(** The members are those of the archive, each once. *)
Theorem C94_members : forall name m, tar_name name ->
  exists l, get_value (tar name (Members m)) ($"members") = Ok (VList l) /\ NoDup l /\ forall y, In y l <-> In y m.
Proof. exact tar_members. Qed.
Print Assumptions C94_members.
(** Other files have none. *)
Theorem C94_other : forall name a, ~ tar_name name -> get_value (tar name a) ($"members") = Err KeyErr.
Proof. exact tar_other. Qed.
Print Assumptions C94_other.
Example C94_example : In SLASH ($"text/x-c++") /\ tar_name ($"a.tar.xz") /\ tar_name ($"a.tgz") /\
  get_value (tar ($"a.tar.xz") (Members [$"d"; $"d/f"; $"d"])) ($"members") = Ok (VList [$"d/f"; $"d"]).
Proof.
  split; [vm_compute; tauto|]. split.
  - right. left. exists ($"a"), ($"xz"). split; [reflexivity|]. cbn. tauto.
  - split; [right; right; exists ($"a"), ($"gz"); split; [reflexivity|cbn; tauto]|].
    vm_compute. reflexivity.
Qed.
Example C94_other_example : ~ tar_name ($"tar").
Proof.
  intros [[b E]|[(b & c & E & _)|(b & c & E & I)]]; destruct b as [|x [|y [|z [|w b]]]]; discriminate.
Qed.
