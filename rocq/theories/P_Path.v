(** Properties C22-C26: path helpers and the attributes of entries. *)
From Coq Require Import List Bool NArith ZArith.
From Verif Require Import Py StrOrder PathModel PathSpec PathProofs EntryModel EntrySpec EntryProofs.
Import ListNotations.

(** C22: splitting a path without empty components and joining again. *)
Theorem C22_split_then_join : forall p, normal p -> join (fst (split p)) (snd (split p)) = p.
Proof. exact split_join_normal. Qed.
Print Assumptions C22_split_then_join.

Theorem C22_join_then_split : forall d n, d = [] \/ normal d -> name_ok n -> split (join d n) = (d, n).
Proof. exact join_split_normal. Qed.
Print Assumptions C22_join_then_split.

Theorem C22_split_is_os_path_split : forall p, normal p -> split p = os_split p.
Proof. exact split_os. Qed.
Print Assumptions C22_split_is_os_path_split.

Theorem C22_join_is_os_path_join : forall a b,
  a = [] \/ normal a -> b <> [] -> starts_with [SLASH] b = false -> join a b = os_join a b.
Proof. exact join_os. Qed.
Print Assumptions C22_join_is_os_path_join.

(** C22: the extension, for every string; [ExtSplit] determines both parts. *)
Theorem C22_splitext : forall p, ExtSplit p (fst (splitext p)) (snd (splitext p)).
Proof. exact splitext_spec. Qed.
Print Assumptions C22_splitext.

Theorem C22_splitext_unique : forall p r e r' e', ExtSplit p r e -> ExtSplit p r' e' -> r = r' /\ e = e'.
Proof. exact ExtSplit_unique. Qed.
Print Assumptions C22_splitext_unique.

Lemma ok_name (n : str) : n <> [] -> has_char SLASH n = false -> name_ok n.
Proof. intros H1 H2. split; [exact H1|now apply has_char_false]. Qed.
Example C22_example : normal ($"/usr/.x/a.tar.gz") /\ normal ($"/") /\ name_ok ($"a.tar.gz") /\
  split ($"/usr/.x/a.tar.gz") = ($"/usr/.x", $"a.tar.gz") /\
  splitext ($"/usr/.x/a.tar.gz") = ($"/usr/.x/a.tar", $".gz") /\
  splitext ($"/usr/.x/..rc") = ($"/usr/.x/..rc", []).
Proof.
  split; [|split; [constructor|split; [now apply ok_name|repeat split; reflexivity]]].
  apply (normal_abs [$"usr"; $".x"; $"a.tar.gz"]); [easy|].
  repeat constructor; now apply ok_name.
Qed.

(** C23: the attributes of an entry reached through [names] below any start
    directory; [inside d n p] says that p is n inside the directory d. *)
Theorem C23_entry_paths : forall sd names st,
  root sd <> [] -> names <> [] -> Forall name_ok names ->
  exists e, mk_entry sd (walk_relpath names) st = Ok e /\
    e_relpath e = join_with [SLASH] names /\
    (root sd = [DOT] -> e_path e = e_relpath e) /\
    (root sd <> [DOT] -> inside (root sd) (e_relpath e) (e_path e)) /\
    e_name e = last names [] /\
    inside (e_dir e) (e_name e) (e_path e) /\
    e_depth e = (length names - 1)%nat /\
    exists x, ((x = [] /\ e_ext e = []) \/ x = DOT :: e_ext e) /\
      e_path e = e_pathx e ++ x /\ e_name e = e_namex e ++ x.
Proof. exact entry_paths. Qed.
Print Assumptions C23_entry_paths.

(** C23: dir is the path of the directory the entry was found in. *)
Theorem C23_dir_is_parent_path : forall sd names n st st',
  root sd <> [] -> names <> [] -> Forall name_ok names -> name_ok n ->
  exists p e, mk_entry sd (walk_relpath names) st = Ok p /\
    mk_entry sd (walk_relpath (names ++ [n])) st' = Ok e /\ e_dir e = e_path p.
Proof. exact entry_parent. Qed.
Print Assumptions C23_dir_is_parent_path.

Example C23_example :
  let sd := Start ($"../src/") ($"/home/src") 5 in
  root sd <> [] /\ Forall name_ok [$".git"; $"a.tar.gz"] /\
  exists e, mk_entry sd (walk_relpath [$".git"; $"a.tar.gz"]) (Status 33188 7 5) = Ok e /\
    e_path e = $"../src//.git/a.tar.gz" /\ e_dir e = $"../src//.git" /\ e_ext e = $"gz" /\
    e_namex e = $"a.tar" /\ e_depth e = 1%nat.
Proof.
  split; [easy|]. split; [repeat constructor; now apply ok_name|].
  eexists. repeat split; reflexivity.
Qed.

(** C24: hide. *)
Theorem C24_hide : forall sd names st e,
  root sd <> [] -> names <> [] -> Forall name_ok names ->
  mk_entry sd (walk_relpath names) st = Ok e ->
  (e_hide e = true <-> dotted (last names [])).
Proof. exact entry_hide. Qed.
Print Assumptions C24_hide.

(** C24 is false for hidden: below ".." everything is hidden. *)
Theorem C24_hidden_refuted : exists sd names st e,
  root sd <> [] /\ names <> [] /\ Forall name_ok names /\
  mk_entry sd (walk_relpath names) st = Ok e /\
  ~ Exists dotted names /\ e_hidden e = true.
Proof. exact hidden_dotdot. Qed.
Print Assumptions C24_hidden_refuted.

(** C24, partial: true for "." and start directories without a component that
    starts with a dot.  Missing: all other spellings, see the next theorem. *)
Theorem C24_hidden_partial : forall sd names st e,
  root sd <> [] -> names <> [] -> Forall name_ok names ->
  (root sd = [DOT] \/ ~ Exists dotted (split_on SLASH (root sd))) ->
  mk_entry sd (walk_relpath names) st = Ok e ->
  (e_hidden e = true <-> Exists dotted names).
Proof. exact entry_hidden_plain. Qed.
Print Assumptions C24_hidden_partial.

(** What hidden means for every start directory. *)
Theorem C24_hidden_exact : forall sd names st e,
  root sd <> [] -> names <> [] -> Forall name_ok names ->
  mk_entry sd (walk_relpath names) st = Ok e ->
  (e_hidden e = true <->
   (root sd <> [DOT] /\ Exists dotted (split_on SLASH (root sd))) \/ Exists dotted names).
Proof. exact entry_hidden. Qed.
Print Assumptions C24_hidden_exact.

Example C24_example :
  let sd := Start ($"src/lib") ($"/home/src/lib") 5 in
  ~ Exists dotted (split_on SLASH (root sd)) /\
  exists e, mk_entry sd (walk_relpath [$".git"; $"config"]) (Status 33188 7 5) = Ok e /\
    e_hide e = false /\ e_hidden e = true.
Proof.
  split; [|eexists; repeat split; reflexivity].
  rewrite <- existsb_dotted. discriminate.
Qed.

(** C25 *)
Open Scope Z_scope.
Theorem C25_mode_types : forall m st, st_mode st = m ->
  type_of_mode m = format_name ((m / 4096) mod 16) /\
  In (type_of_mode m) documented_types /\
  size_of st = (if ((m / 4096) mod 16 =? 8) then st_size st else 0)%Z /\
  perm_of m = (m mod 4096)%Z /\
  (executable_of m = true <->
   (m / 4096) mod 16 <> 4 /\ (m / 4096) mod 16 <> 10 /\
   (Z.testbit m 0 = true \/ Z.testbit m 3 = true \/ Z.testbit m 6 = true)).
Proof. exact mode_types. Qed.
Print Assumptions C25_mode_types.

(** 0o100755, 0o40755 and 0o120777. *)
Example C25_example :
  type_of_mode 33261 = $"file" /\ executable_of 33261 = true /\ perm_of 33261 = 493%Z /\
  type_of_mode 16877 = $"directory" /\ executable_of 16877 = false /\
  type_of_mode 41471 = $"symlink" /\ executable_of 41471 = false.
Proof. repeat split; reflexivity. Qed.

(** C26 is false for an entry that is itself a mountpoint ... *)
Theorem C26_mountpoint_refuted : exists lines p m,
  nearest lines p m /\ (forall m', nearest lines p m' -> m' = m) /\
  snd (fst (mount_get (mountpoints lines) p)) <> snd (fst m).
Proof. exact mount_itself_wrong. Qed.
Print Assumptions C26_mountpoint_refuted.

(** ... and for stacked mounts: the later line m2 hides m1, but m1 is reported. *)
Theorem C26_stacked_refuted : exists l1 m1 m2 p,
  m_path m1 = m_path m2 /\ nearest (l1 ++ [m1; m2]) p m2 /\
  snd (fst (mount_get (mountpoints (l1 ++ [m1; m2])) p)) = snd (fst m1) /\
  snd (fst m1) <> snd (fst m2).
Proof. exact mount_stacked_wrong. Qed.
Print Assumptions C26_stacked_refuted.

(** C26, partial: for every other entry the attributes are those of a nearest
    mountpoint.  Missing: mountpoints themselves, the choice among stacked
    mounts. *)
Theorem C26_nearest_partial : forall lines p t,
  p = SLASH :: t ->
  (forall m, In m lines -> normal (m_path m) /\ p <> m_path m) ->
  (exists m, In m lines /\ contains (m_path m) p) ->
  exists m, nearest lines p m /\
    mount_get (mountpoints lines) p =
    (rstrip_p (N.eqb SLASH) (m_path m) ++ [SLASH], snd (fst m), snd m).
Proof. exact nearest_mount. Qed.
Print Assumptions C26_nearest_partial.

Definition ex_mounts : list mount :=
  [($"/", $"sda", $"ext4"); ($"/mnt", $"sdb", $"xfs"); ($"/mnt/a", $"sdc", $"xfs"); ($"/mn", $"sdd", $"xfs")].
Example C26_example :
  (forall m, In m ex_mounts -> normal (m_path m) /\ $"/mnt/ab" <> m_path m) /\
  (exists m, In m ex_mounts /\ contains (m_path m) ($"/mnt/ab")) /\
  mount_get (mountpoints ex_mounts) ($"/mnt/ab") = ($"/mnt/", $"sdb", $"xfs").
Proof.
  split; [|split; [|reflexivity]].
  - intros m [<-|[<-|[<-|[<-|[]]]]]; (split; [|discriminate]); [constructor|..].
    + apply (normal_abs [$"mnt"]); [easy|]. repeat constructor; now apply ok_name.
    + apply (normal_abs [$"mnt"; $"a"]); [easy|]. repeat constructor; now apply ok_name.
    + apply (normal_abs [$"mn"]); [easy|]. repeat constructor; now apply ok_name.
  - eexists. split; [now left|now left].
Qed.
